{"id": "C01", "title": "get_array returns exactly the indexed rows of the selected trains", "statement": "For a source/key of a DataCollection whose files have well-formed indexes, get_array() returns, for every train ID of the collection, exactly the rows the file index assigns to that train (first .. first+count of the file holding that train), in file order and labelled with that train ID, and returns no other row. On files whose index has gaps between successive trains this is false of the code (data of another place is returned), and for a dataset cut short to its first row (the row is repeated for all trains).", "quantifier": "every set of files, every index contents, every selection of trains, every row payload", "why_tests_cant": "Row placement depends on the interaction of arbitrary counts (0, 1, many), arbitrary subsets of selected trains and any number of sequence files; tests sample a handful of regular mock runs.", "anchors": ["karabo_data/reader.py: DataCollection.get_array, _find_data_chunks, _expand_trainids", "karabo_data/read_machinery.py: DataChunk, contiguous_regions"]}
{"id": "C02", "title": "Selected trains are split into maximal contiguous regions", "statement": "When data is read for a selection of trains, each selected train of a file lies in exactly one contiguous region, unselected trains lie in none, and the regions are non-empty, ordered and separated by at least one unselected train; on a file with no trains the region search fails instead of returning an empty result.", "quantifier": "every boolean selection mask of any length", "why_tests_cant": "all masks of every length; a unit test checks a few masks", "anchors": ["karabo_data/read_machinery.py: contiguous_regions"]}
{"id": "C03", "title": "get_array labels are in increasing train order when sequence files do not interleave", "statement": "If the files of a source cover disjoint train ranges with increasing train IDs inside each file, the trainId labels returned by get_array are non-decreasing whatever the order in which the files are listed. If the ranges interleave the labels can be out of order.", "quantifier": "every listing order of any number of files, every train selection", "why_tests_cant": "the file listing order is whatever the OS returns; tests see one order", "anchors": ["karabo_data/reader.py: DataCollection.get_array", "karabo_data/writer.py: FileWriter._generate_index"]}
{"id": "C04", "title": "train_from_id returns exactly the indexed data of that train", "statement": "train_from_id(t) raises the train-ID error exactly when t is not in train_ids; otherwise it lists every selected source, and for every selected key gives the rows the index assigns to t: the single row if there is one, the stacked rows if several, and no entry for the key if there are none or no file holds t.", "quantifier": "every collection, train ID, source and key", "why_tests_cant": "quantifies over all index contents and all file partitions", "anchors": ["karabo_data/reader.py: DataCollection.train_from_id, _find_data"]}
{"id": "C05", "title": "trains() agrees with train_from_id for every train", "statement": "Iterating trains() yields each train ID of the collection once, in order, with the same data as train_from_id of that ID for every key with at least one row. For a key with no row in that train the two differ: trains() returns an empty array while train_from_id (and the documentation) omit the key.", "quantifier": "every collection and every train", "why_tests_cant": "needs all count patterns and all file layouts", "anchors": ["karabo_data/reader.py: TrainIterator, DataCollection.train_from_id", "docs/reading_files.rst: Missing data"]}
{"id": "C06", "title": "The dataset cache of trains() is invisible", "statement": "The data yielded for a train does not depend on which trains were yielded before: the (file, dataset) cache used while iterating never changes a result, for any iteration history.", "quantifier": "every sequence of trains visited, every number of sequence files", "why_tests_cant": "a history property: any order of switching between files", "anchors": ["karabo_data/reader.py: TrainIterator._find_data"]}
{"id": "C07", "title": "require_all skips exactly the incomplete trains", "statement": "trains(require_all=True) yields exactly those trains for which every selected control source has an entry and every group of selected keys of every instrument source has at least one row.", "quantifier": "every collection and every train", "why_tests_cant": "all combinations of missing files and zero counts", "anchors": ["karabo_data/reader.py: DataCollection._check_data_missing, TrainIterator.__iter__"]}
{"id": "C08", "title": "train_from_index is Python indexing of train_ids", "statement": "train_from_index(i) returns the train at Python index i (negative indexes count from the end) with the data of train_from_id, and raises IndexError exactly when i is outside [-n, n).", "quantifier": "every collection and every integer", "why_tests_cant": "all integers", "anchors": ["karabo_data/reader.py: DataCollection.train_from_index"]}
{"id": "C09", "title": "select_trains by index keeps Python slice semantics", "statement": "select_trains(by_index[slice]) gives exactly the Python slice of train_ids for any start/stop/step; select_trains(by_index[list]) gives the sorted list of the indexed trains and raises IndexError exactly when some index is out of range. Duplicated indexes produce duplicated trains.", "quantifier": "every collection, every slice (including negative start, stop, step) and list", "why_tests_cant": "unbounded slice arguments", "anchors": ["karabo_data/reader.py: DataCollection.select_trains"]}
{"id": "C10", "title": "select_trains by an ID range gives exactly the trains in the range", "statement": "select_trains(by_id[a:b]) keeps exactly the trains with a <= id < b, or raises ValueError when a is after the last or b before the first train. When a bound falls in a gap inside the run and is a plain Python int, the code raises TypeError instead of selecting. With a positive step s, by_id[a:b:s] keeps every s-th of those trains, beginning with the first; with a negative step and bounds which are trains of the run it goes backwards from a and stops before b; a step of 0 raises ValueError, and a bound in a collection without trains raises IndexError. Going backwards, a start before the run selects the whole run.", "quantifier": "every sorted train list, every pair of bounds, every step", "why_tests_cant": "bounds relative to arbitrary gaps in train IDs", "anchors": ["karabo_data/reader.py: DataCollection.select_trains", "karabo_data/read_machinery.py: _tid_to_slice_ix"]}
{"id": "C11", "title": "select_trains by an ID list gives the sorted intersection", "statement": "select_trains(by_id[list]) keeps exactly the trains that are both in the collection and in the list, sorted and without duplicates; it raises ValueError exactly when there are none.", "quantifier": "every collection and list of IDs", "why_tests_cant": "unbounded", "anchors": ["karabo_data/reader.py: DataCollection.select_trains"]}
{"id": "C12", "title": "select with glob patterns picks exactly the matching sources and keys", "statement": "select(list of (source glob, key glob)) gives a collection whose sources are exactly those of the original with a matching source name and at least one matching key, and whose keys are the union of the keys matched by some pair; ValueError is raised exactly when one pair matches nothing.", "quantifier": "every collection, every list of pattern pairs", "why_tests_cant": "all names and patterns", "anchors": ["karabo_data/reader.py: DataCollection.select, _expand_selection, _select_glob"]}
{"id": "C13", "title": "Glob patterns mean what the documentation says", "statement": "A name matches a pattern exactly when: * stands for any string, ? for one character, [seq] / [!seq] for one character in / not in the set (ranges allowed), anything else for itself; for control sources a key pattern not ending in .value or * also matches the key with .value appended.", "quantifier": "every pattern and every name", "why_tests_cant": "all strings", "anchors": ["karabo_data/reader.py: DataCollection._select_glob"]}
{"id": "C14", "title": "deselect is the complement of select", "statement": "After deselect, a source remains exactly when it was not matched with all keys, and the keys of a remaining source are exactly its previous keys that were not matched.", "quantifier": "every collection and deselection", "why_tests_cant": "all selections", "anchors": ["karabo_data/reader.py: DataCollection.deselect"]}
{"id": "C15", "title": "union contains everything and ignores order", "statement": "union of collections has exactly the union of their train IDs (sorted), of their sources and of their selected keys, if every source selected in an operand is held by one of its files and the files of a source have the same keys; any order of the operands or of the underlying file set gives the same sources, trains, keys and data for every train. The union raises ValueError exactly when the files conflict. (With a source which no file of its operand holds, a source deselected from both operands can come back.)", "quantifier": "every list of collections, every permutation, every set iteration order", "why_tests_cant": "set iteration order is arbitrary", "anchors": ["karabo_data/reader.py: DataCollection.union", "karabo_data/read_machinery.py: union_selections"]}
{"id": "C16", "title": "Conflicting files are always detected", "statement": "Creating a collection raises ValueError exactly when two of its files both hold some source and a common train ID.", "quantifier": "every list of files", "why_tests_cant": "all pairs of files, sources and trains", "anchors": ["karabo_data/reader.py: DataCollection._check_source_conflicts"]}
{"id": "C17", "title": "Selecting never changes data", "statement": "For any sequence of select, deselect, select_trains operations applied to a collection, the data returned for a (source, key, train) still selected equals the data returned by the original collection, and no train or source appears that was not in the original.", "quantifier": "every history of operations of any length", "why_tests_cant": "histories of any length", "anchors": ["karabo_data/reader.py: DataCollection.select, deselect, select_trains, train_from_id"]}
{"id": "C18", "title": "Key selection only narrows except through \"*\"", "statement": "Selecting with a key pattern other than * never makes a key available that was not available before. With key pattern * (the default) a previously deselected key becomes available again: narrowing is refuted for the code.", "quantifier": "every history of selections", "why_tests_cant": "histories", "anchors": ["karabo_data/reader.py: DataCollection._select_glob"]}
{"id": "C19", "title": "Opening a file finds its trains and sources", "statement": "Opening a file gives the non-zero train IDs in file order, the control sources and the instrument sources named in its metadata (group suffix removed, padding ignored), or fails if an entry has an unknown category; the position of a train ID in the list is the position of its index entry if zero train IDs appear only as padding at the end, and may not be otherwise.", "quantifier": "every metadata list and train ID dataset", "why_tests_cant": "all strings", "anchors": ["karabo_data/reader.py: FileAccess.__init__, _read_data_sources, _read_index"]}
{"id": "C20", "title": "Old-format indexes give the right counts", "statement": "For files with first/last/status indexes the count used for a train is last-first+1 if status is 1 and 0 if status is 0, despite unsigned 64-bit arithmetic.", "quantifier": "every first, last, status in uint64", "why_tests_cant": "2^128 cases", "anchors": ["karabo_data/reader.py: FileAccess._read_index"]}
{"id": "C21", "title": "get_data_counts gives the number of rows per train", "statement": "For an instrument source, get_data_counts maps each selected train held by a file of the source to the number of rows the index assigns. For control sources the code fails for every file with a train ID list other than [1].", "quantifier": "every collection", "why_tests_cant": "all index contents", "anchors": ["karabo_data/reader.py: DataCollection.get_data_counts"]}
{"id": "C22", "title": "get_series agrees with get_array", "statement": "For contiguous indexes starting at 0, get_series gives for each selected train the same values as get_array (for instrument data with several rows per train: the first value of each row, labelled with its pulse ID). It fails if some file has no row for the source, and gives values of other rows for an index which does not start at 0.", "quantifier": "every collection", "why_tests_cant": "all index contents", "anchors": ["karabo_data/reader.py: DataCollection.get_series"]}
{"id": "C23", "title": "get_dask_array has the content of get_array", "statement": "For indexes which follow the data format, the dask array concatenates the same rows in the same order as get_array (for other indexes it has the same rows or fewer), and its block size search always terminates with a block of at least one row or of at most 2 GB.", "quantifier": "every collection and dataset shape", "why_tests_cant": "termination for all sizes", "anchors": ["karabo_data/reader.py: DataCollection.get_dask_array"]}
{"id": "C24", "title": "write() then reopen gives the same data per train", "statement": "Writing a collection to a new file and opening that file gives the same train IDs, and for every selected source, key and train the same rows as the original collection, if trains are in increasing order and sequence files do not interleave. Otherwise rows can silently be attributed to the wrong train.", "quantifier": "every collection", "why_tests_cant": "round trip over all contents", "anchors": ["karabo_data/writer.py: FileWriter", "karabo_data/reader.py: DataCollection.write"]}
{"id": "C25", "title": "Written indexes are always valid", "statement": "A file written by write() has, for every source and group, an index that starts at 0, is contiguous, has one entry per train ID and covers exactly the rows written.", "quantifier": "every collection", "why_tests_cant": "all counts", "anchors": ["karabo_data/writer.py: FileWriter._generate_index, _make_control_index"]}
{"id": "C26", "title": "The order of written data is not checked", "statement": "The writer promises to fail if the data is not in train order. With unsigned train IDs its check can never fail: write() succeeds whatever the order of the data, the new file has the rows in the order of get_array but the train IDs sorted, so whenever data is out of order some row of the new file belongs to another train.", "quantifier": "every collection, every field, every sequence of train IDs", "why_tests_cant": "all sequences", "anchors": ["karabo_data/writer.py: FileWriter._generate_index"]}
{"id": "C27", "title": "Virtual datasets show the same rows as get_array", "statement": "write_virtual / get_virtual_dataset map for every field with data the same rows in the same order as get_array, and the index written with them assigns to each train the same rows; fields without any row are left out. A virtual file opened again gives the same arrays, and the same data for each train if control sources have a value for every train (otherwise train_from_id on the virtual file can show a value of another train).", "quantifier": "every collection", "why_tests_cant": "all chunk layouts", "anchors": ["karabo_data/writer.py: VirtualFileWriter", "karabo_data/reader.py: DataCollection.get_virtual_dataset"]}
{"id": "C28", "title": "A file that validates has a usable index", "statement": "If file validation reports no problem, and counts are below 2^63 and datasets below 2^53 rows, then train IDs are strictly increasing with zeros only as padding at the end, and for every source group the index has one entry per train, starts at 0, is contiguous and stays inside every dataset. (Larger counts wrap around and can pass; firsts and counts of different lengths raise ValueError instead of being reported.)", "quantifier": "every file", "why_tests_cant": "soundness over all files", "anchors": ["karabo_data/validation.py: FileValidator, _check_index_contiguous"]}
{"id": "C29", "title": "A good file produces no report", "statement": "If the train IDs and indexes of a file with at least one train satisfy the documented rules, validation reports nothing. (A file without trains makes validation raise IndexError.)", "quantifier": "every file", "why_tests_cant": "completeness over all files", "anchors": ["karabo_data/validation.py: FileValidator"]}
{"id": "C30", "title": "Validated files can be read consistently", "statement": "For files that pass validation (with counts in the sane range of C28), get_array, get_series, get_data_counts and train_from_id return consistent data of the instrument sources for every train. Control sources are not validated, and there the readers can disagree.", "quantifier": "every validated file", "why_tests_cant": "cross-module consequence for all files", "anchors": ["karabo_data/validation.py: FileValidator", "karabo_data/reader.py: DataCollection.get_array"]}
{"id": "C31", "title": "The cached run map is never seen half-written", "statement": "At every instant, whatever step a process saving the map has crashed or been interrupted at, the cache file is absent, or is the complete previous map, or is a complete new map.", "quantifier": "every crash point, every number of write steps", "why_tests_cant": "all crash points", "anchors": ["karabo_data/run_files_map.py: atomic_dump"]}
{"id": "C32", "title": "Concurrent savers never garble the cached map", "statement": "For any number of processes saving maps at the same time and any interleaving of their steps, the cache file is always absent, the initial map, or the complete map of one of them.", "quantifier": "every number of processes, every interleaving, every crash pattern", "why_tests_cant": "all schedules", "anchors": ["karabo_data/run_files_map.py: atomic_dump, RunFilesMap.save"]}
{"id": "C33", "title": "The cache is transparent", "statement": "For any history of replacing and removing data files, opening the run and saving the map, by any number of processes in any interleaving, opening a run with a cached map gives the same train IDs and sources as reading the files, if replacing a file always changes its size or modification time. (It fails for a replacement with the same size and time, and for files changed in place between being opened and the map being saved.)", "quantifier": "every history of file changes and opens", "why_tests_cant": "histories", "anchors": ["karabo_data/run_files_map.py: RunFilesMap.load, get, save", "karabo_data/reader.py: FileAccess.__init__, RunDirectory"]}
{"id": "C34", "title": "A saved map can be loaded again", "statement": "After saving, loading returns for each file exactly the train IDs and sources that were saved, for every file whose size and modification time did not change, and nothing for the others.", "quantifier": "every list of files", "why_tests_cant": "all contents", "anchors": ["karabo_data/run_files_map.py: RunFilesMap.save, load"]}
{"id": "C35", "title": "Cache problems never stop a run from being opened", "statement": "Missing or damaged caches and unwritable directories are ignored when opening a run. An unreadable cache file, or a write error other than a permission error, is not ignored.", "quantifier": "every cache state and error", "why_tests_cant": "all error points", "anchors": ["karabo_data/run_files_map.py: RunFilesMap.load, save", "docs/reading_files.rst: Cached run data maps"]}
{"id": "C36", "title": "stack_detector_data puts each module in its place", "statement": "For detector data keyed by source, the result has module n of the data at index n of the module axis, the fill value for modules missing or without rows, and the right shape; ValueError/IndexError are raised exactly for no data, mismatching shapes or dtypes, non-detector sources, and module numbers beyond the number of modules.", "quantifier": "every dictionary of modules and shapes", "why_tests_cant": "all shapes and module subsets", "anchors": ["karabo_data/stacking.py: stack_detector_data"]}
{"id": "C37", "title": "StackView behaves like the real stacked array", "statement": "Indexing the lazy stacked view gives the same array as indexing the real stacked array, for any index expression that keeps the axes following the module axis, when the modules axis is the default one. With another axis, or with an integer on one of the last two axes, the view differs; module numbers below -n are accepted. An index which picks some modules (neither one nor all) is refused.", "quantifier": "every index expression and shape", "why_tests_cant": "all shapes and indexes", "anchors": ["karabo_data/stacking.py: StackView"]}
{"id": "C38", "title": "stack_data orders sources by their embedded numbers", "statement": "stack_data stacks the arrays in increasing order of the sequence of integers in the source names, so that module 10 follows module 9.", "quantifier": "every set of names", "why_tests_cant": "all names", "anchors": ["karabo_data/stacking.py: stack_data"]}
{"id": "C39", "title": "Detector get_array labels every frame with its train and pulse", "statement": "For a multi-module detector whose index entries each start where the previous one ends, the array returned for a module has, for each train and pulse selected, the frame recorded for it, and no frame is attributed to another train; or an exception is raised, as it is when a train is missing inside a file. (An index entry (0, 0) for a train without frames makes get_array return frames of another train.)", "quantifier": "every file layout and train gap pattern", "why_tests_cant": "all gap patterns", "anchors": ["karabo_data/components.py: MPxDetectorBase._get_module_pulse_data, train_id_chunks"]}
{"id": "C40", "title": "Pulse selections select the pulses asked for", "statement": "Selecting pulses by id (single, list, slice) or by index gives exactly the frames with those pulse IDs / positions in each train, for numbers from 0 to 2^64-1 and pulse IDs below 2700; pulse indexes in a list must increase. (Negative numbers are not refused and select nothing; by_id[0:2700] also returns IDs from 2700 on.)", "quantifier": "every pulse ID table and selection", "why_tests_cant": "all selections", "anchors": ["karabo_data/components.py: _check_pulse_selection, _select_pulse_ids, _select_pulse_indices"]}
{"id": "C41", "title": "Iterating and batch reading select the same pulses", "statement": "MPxDetectorTrainIterator and get_array select the same frames for the same pulse selection. For a step-1 slice of pulse IDs this needs pulse IDs sorted within the train.", "quantifier": "every pulse table and selection", "why_tests_cant": "two implementations, all inputs", "anchors": ["karabo_data/components.py: MPxDetectorTrainIterator"]}
{"id": "C42", "title": "min_modules keeps exactly the trains with enough modules", "statement": "Creating a detector with min_modules=n keeps exactly the trains for which at least n modules have frames, and fails if modules or trains disagree on the number of frames.", "quantifier": "every run", "why_tests_cant": "all availability patterns", "anchors": ["karabo_data/components.py: MPxDetectorBase._select_trains, __init__"]}
{"id": "C43", "title": "Virtual CXI files place every frame at its train and module", "statement": "In the virtual CXI dataset the frame i of train number n of module m is at position n*frames_per_train+i of module m, for every chunk layout; frames without data keep the fill value; the mapping always terminates and its internal assertions hold.", "quantifier": "every chunk layout and missing-train pattern", "why_tests_cant": "loop over arbitrary chunks", "anchors": ["karabo_data/write_cxi.py: VirtualCXIWriter._map_chunk, collect_data"]}
{"id": "C44", "title": "CXI pulse IDs are consistent across modules", "statement": "Pulse IDs written are the IDs on which all modules having the frame agree; an exception is raised exactly when two modules disagree or a frame is in no module (for pulse IDs below 9999: the code takes 9999 for a missing frame and then refuses the file).", "quantifier": "every run, detector and pulse table", "why_tests_cant": "all tables", "anchors": ["karabo_data/write_cxi.py: VirtualCXIWriter.collect_pulse_ids"]}
{"id": "C45", "title": "Streaming delivers trains in order, each once", "statement": "Under any interleaving of feed, client requests and the server thread, the replies sent are always a prefix of the sequence fed, the buffer never exceeds its limit, and every request of the client is answered with the oldest unsent train. (A message without parts and an unknown request end the server thread.)", "quantifier": "every schedule of producer, server and client", "why_tests_cant": "all interleavings", "anchors": ["karabo_data/export.py: ZMQStreamer, REPInterface"]}
{"id": "C46", "title": "Streaming shutdown", "statement": "Stopping the streamer after the last feed must not lose trains. The code can lose buffered trains, and can block for ever if a request arrives after stop with an empty buffer.", "quantifier": "every schedule", "why_tests_cant": "race", "anchors": ["karabo_data/export.py: serve_files, REPInterface.run, ZMQStreamer.stop"]}
{"id": "C47", "title": "Serialised train data can be decoded", "statement": "Decoding the multipart message produced for protocol 2.2, or the message of protocol 1.0, gives back the same sources, keys, arrays and, for 2.2, metadata; exactly the data which can be represented are accepted. Dummy timestamps also go into the metadata in the data, unless metadata are given; in protocol 1.0 a source without metadata in its data, or with metadata given, gets no timestamp. (numpy booleans are refused; protocol 1.0 does not send the metadata argument.)", "quantifier": "every train dictionary", "why_tests_cant": "all dictionaries", "anchors": ["karabo_data/export.py: ZMQStreamer._serialize"]}
{"id": "C48", "title": "Tiles partition each module", "statement": "For AGIPD, LPD and DSSC each pixel of a module's data belongs to exactly one tile; the slice of a tile holds exactly the tile's pixels; splitting module data gives one array per tile with the data of the tile's pixels.", "quantifier": "every pixel and every data content", "why_tests_cant": "all contents and pixels", "anchors": ["karabo_data/geometry2/__init__.py: split_tiles, _tile_slice"]}
{"id": "C49", "title": "Data coordinates and pixel positions agree", "statement": "get_pixel_positions gives the first corner or, with centre=True, the mean of the corners of each pixel; data_coords_to_positions gives the point of the tile for each point of a pixel, so both agree on corners and centres, for every geometry; DSSC does not implement the latter. (The coordinate one past the last row of a module is answered with a point of the next module.)", "quantifier": "every geometry (tile corner and vectors), every pixel and every point in it", "why_tests_cant": "all real geometries", "anchors": ["karabo_data/geometry2/__init__.py: get_pixel_positions, data_coords_to_positions, _module_coords_to_tile"]}
{"id": "C50", "title": "Assembled images contain every pixel at its grid position", "statement": "position_modules_fast gives an image that is just large enough for all pixels; a cell holds the value of the last tile with a pixel there, so without overlaps each pixel's value is at the pixel's cell; all other cells hold NaN or what the given output array held. Tiles that are not aligned with the axes, data or output arrays of another shape and output arrays of a wrong type are refused.", "quantifier": "every geometry, data and output array", "why_tests_cant": "all geometries", "anchors": ["karabo_data/geometry2/__init__.py: DetectorGeometryBase.position_modules_fast, output_array_for_position_fast", "karabo_data/geometry2/snapped.py: SnappedGeometry, GridGeometryFragment"]}
{"id": "C51", "title": "Distortion array corners match pixel positions", "statement": "Each pixel of to_distortion_array has the corners of that pixel (four, or six for DSSC); with negative coordinates disallowed the minimum x and y are 0 and relative positions are unchanged; the outlines of neighbouring pixels of a tile share the corners of the edge between them.", "quantifier": "every geometry, with or without missing tiles", "why_tests_cant": "all geometries", "anchors": ["karabo_data/geometry2/__init__.py: to_distortion_array, _tile_slice, _adjust_pixel_coords"]}
{"id": "C52", "title": "CrystFEL export and import are inverse", "statement": "Writing a complete geometry as a CrystFEL file (whatever the dimensions, paths and optional values, as long as there is a frame dimension) and reading the file back gives the same corners, vectors and pixel counts (in exact arithmetic). Without a frame dimension ValueError is raised.", "quantifier": "every complete geometry, every list of dimensions and every set of optional arguments", "why_tests_cant": "all geometries", "anchors": ["karabo_data/geometry2/crystfel_fmt.py: frag_to_crystfel, write_crystfel_geom", "karabo_data/geometry2/__init__.py: GeometryFragment.from_panel_dict, from_crystfel_geom"]}
{"id": "C53", "title": "Rigid groups cover each panel once", "statement": "In the CrystFEL file every panel belongs to exactly one quadrant group (a group of whole modules if they can be divided evenly) and to exactly the group of its module; groups have no other panels.", "quantifier": "every number of modules, tiles and groups", "why_tests_cant": "all sizes", "anchors": ["karabo_data/geometry2/crystfel_fmt.py: get_rigid_groups"]}
{"id": "C54", "title": "Quadrant positions are honoured in the given unit", "statement": "from_quad_positions places the reference corner of each quadrant at the given position times the unit and the tiles of the quadrant in a grid with the given gaps, where they do not overlap; pixel steps are one pixel. For AGIPD the pixel steps are one unit instead of one pixel (refuted for units other than the pixel).", "quantifier": "every quadrant position, gap and unit", "why_tests_cant": "all rational numbers", "anchors": ["karabo_data/geometry2/__init__.py: AGIPD_1MGeometry.from_quad_positions, LPD_1MGeometry.from_quad_positions"]}
{"id": "C55", "title": "open_run accepts equivalent forms of proposal and run numbers", "statement": "For all proposal and run numbers, passing them as int, as a decimal string with or without leading zeros (up to 6 and 4 digits), or as the padded name (p002012, r0243) opens the same directory: the one named rNNNN in the data folder of the first directory found with the name pNNNNNN; different numbers have different names; a proposal given as a path is used as it is. (A name without the padding, such as p2012, is not completed.)", "quantifier": "every number, every form, every file system", "why_tests_cant": "all numbers and strings", "anchors": ["karabo_data/reader.py: open_run", "karabo_data/read_machinery.py: find_proposal"]}
{"id": "C56", "title": "Quick view stays inside the data", "statement": "Stepping through data with next/prev keeps the position inside them and shows the frame of the position. (Refuted: next at the last frame goes one past the end with IndexError; setting pos raises AttributeError; the constructor refuses arrays of more than one element.)", "quantifier": "every history of next/prev/pos/data/display calls, including failing ones", "why_tests_cant": "histories", "anchors": ["karabo_data/utils.py: QuickView"]}
{"id": "C57", "title": "Slice objects print as the expression that creates them", "statement": "repr(by_id[...]) / repr(by_index[...]) is a Python expression for the object (ints, slices, ellipsis, lists of ints, and tuples of two or more of them), and determines the name and the items between the brackets. (A tuple of one item prints like the item.)", "quantifier": "every index expression", "why_tests_cant": "all expressions", "anchors": ["karabo_data/read_machinery.py: _SliceConstructable"]}
{"id": "C58", "title": "Names survive writing and reopening", "statement": "Every source name obtained by opening a file is recovered when it is written to the metadata of a new file and read back; every key made of dataset names without dots is recovered from its path (with a dot in a name it is not).", "quantifier": "every name", "why_tests_cant": "all strings", "anchors": ["karabo_data/writer.py: FileWriter.write_metadata", "karabo_data/reader.py: FileAccess._read_data_sources, get_keys"]}
{"id": "C59", "title": "Unusable files are skipped, never fatal", "statement": "Opening a run keeps exactly the usable files in listing order and fails only if none is usable or two conflict.", "quantifier": "every list of files with any subset unusable", "why_tests_cant": "all subsets", "anchors": ["karabo_data/reader.py: DataCollection.from_paths"]}
{"id": "C60", "title": "Selection by dictionary", "statement": "select({source: keys}) gives exactly the listed sources and keys and raises SourceNameError exactly when a source is unknown. The documented empty key set (all keys) raises TypeError in the code, and an argument of another type selects nothing silently.", "quantifier": "every dictionary", "why_tests_cant": "all dictionaries", "anchors": ["karabo_data/reader.py: DataCollection._expand_selection"]}
{"id": "C61", "title": "Repeated reading of indexes and keys gives the same answer", "statement": "Whatever sequence of index and key queries was made on an open file before, each query returns what a fresh read of the file returns (the internal caches are invisible).", "quantifier": "every file and every history of queries", "why_tests_cant": "depends on the whole history of earlier calls, of any length", "anchors": ["karabo_data/reader.py: FileAccess.get_index, get_keys"]}
{"id": "C62", "title": "Run validation covers files and cached map", "statement": "Validating a run directory reports nothing exactly when it has files, all can be opened, they can be combined, each file validates, and the cached map has the right train IDs and sources for each of them. (The code raises TypeError if a file has no entry in the map.)", "quantifier": "every list of files and every cached map", "why_tests_cant": "all combinations of good, bad and unopenable files and map entries", "anchors": ["karabo_data/validation.py: RunValidator.run_checks, check_files_openable, check_files, check_files_map"]}
{"id": "C63", "title": "trains() of a detector yields the complete trains", "statement": "Iterating a detector with trains() yields, in increasing order, exactly the trains of the detector for which every source of the detector's data has rows for every key, until the first error; min_modules does not relax this.", "quantifier": "every run, detector and pulse selection", "why_tests_cant": "all availability patterns", "anchors": ["karabo_data/components.py: MPxDetectorTrainIterator.__iter__, MPxDetectorBase.trains"]}
{"id": "C64", "title": "Frame identifiers in CXI files", "statement": "The identifier of every frame in a virtual CXI file is its train ID and its pulse ID in decimal notation separated by a colon; frames with equal identifiers have the same train ID and pulse ID.", "quantifier": "every run and detector", "why_tests_cant": "all train and pulse numbers", "anchors": ["karabo_data/write_cxi.py: VirtualCXIWriter.write, convert"]}
{"id": "C65", "title": "Only selected fields can be read", "statement": "get_array, get_series, get_data_counts and get_virtual_dataset raise SourceNameError for a source that is not among the sources of the collection, PropertyNameError for a key that is not among the keys of the source, and so succeed only for fields of the current selection.", "quantifier": "every collection reached by any history of selections, every source and key", "why_tests_cant": "all histories and names", "anchors": ["karabo_data/reader.py: DataCollection._check_field, get_array, get_series, get_data_counts, get_virtual_dataset"]}
{"id": "C66", "title": "Arrays have the type of the data in every file", "statement": "The data type and entry shape of the array returned by get_array are those of the dataset in every file of the source; if two files disagree an exception is raised, never a converted or partial array.", "quantifier": "every run with any number of files", "why_tests_cant": "all combinations of files", "anchors": ["karabo_data/reader.py: DataCollection.get_array"]}
{"id": "C67", "title": "Streamed data are those passed to feed()", "statement": "What a client receives for a train is what the data were when feed() was called, even if the caller changes its arrays afterwards. (Refuted for protocol 2.2: a C-contiguous array is queued as a memory view and is read when the message is sent; protocol 1.0 copies.)", "quantifier": "all data, arrays (any strides), protocol versions, and all writes to memory between feed() and the moment of sending", "why_tests_cant": "a test compares the message at once; that no later write can be seen has to hold for all interleavings of the caller and the sending thread", "anchors": ["karabo_data/export.py:ZMQStreamer._serialize", "karabo_data/export.py:ZMQStreamer.feed"]}
{"id": "C68", "title": "get_dataframe has one column per field", "statement": "get_dataframe returns exactly one column per readable field of the (selected) collection, without timestamps unless asked for, named source/key without a trailing .value, with the values of get_series; no two columns share a name; without any field it raises ValueError.", "quantifier": "every collection, selection and flag", "why_tests_cant": "all sets of sources and keys", "anchors": ["karabo_data/reader.py: DataCollection.get_dataframe, get_series"]}
{"id": "C69", "title": "Interpolated assembly takes values from the right place", "statement": "The image which position_modules_interpolate makes for AGIPD has room for every point of every tile, and is less than two pixels larger than that on each side. Each output pixel is filled with data at the point of the tile that is there. (The second part is refuted: of two points of an AGIPD tile with different slow scan coordinates at most one is taken from the right place, whatever the centre.)", "quantifier": "every AGIPD geometry from quadrant positions, every tile, every two points", "why_tests_cant": "all geometries and points", "anchors": ["karabo_data/geometry2/__init__.py: DetectorGeometryBase.position_modules_interpolate", "karabo_data/geometry2/__init__.py: AGIPD_1MGeometry._get_dimensions"]}
{"id": "C70", "title": "Geometry files give the positions in the file", "statement": "A geometry made from an EuXFEL HDF5 geometry file has the reference corner of each tile at the sum of the positions of its quadrant, module and tile. Inverting an LPD file negates all positions; inverting it twice gives the original (refuted: the second time fails).", "quantifier": "every file, quadrant positions and unit", "why_tests_cant": "all files", "anchors": ["karabo_data/geometry2/__init__.py: LPD_1MGeometry.from_h5_file_and_quad_positions, DSSC_1MGeometry.from_h5_file_and_quad_positions, invert_xfel_lpd_geom"]}
{"id": "C71", "title": "CrystFEL panels point at their tile's data", "statement": "The panel of a tile in the CrystFEL file gives the rows and columns of exactly the tile's pixels (counted in a stack of modules if there is no module dimension) and each dimension as requested; no line contradicts another one and tiles have different panel names.", "quantifier": "every geometry, list of dimensions and set of optional arguments", "why_tests_cant": "all geometries", "anchors": ["karabo_data/geometry2/crystfel_fmt.py: frag_to_crystfel, write_crystfel_geom"]}
{"id": "C72", "title": "A region of interest reads exactly that part of the array", "statement": "get_array(source, key, roi=by_index[...]) returns the array which get_array(source, key) would return, indexed with [:, roi]: same train labels, element type, shape and values, for any mixture of integers, forward slices and one Ellipsis, and any number of dimensions; an expression which cannot be applied to the whole array raises the same exception; the default gives the whole array; a roi which is not a by_index is a TypeError. The dimensions are named trainId, dim_0, dim_1, ... or with the names given, and a wrong number of names is an error. (Slices which go backwards are refused although they could be applied to the array.)", "quantifier": "every collection, field, number and lengths of dimensions, and every index expression of integers, slices and Ellipsis", "why_tests_cant": "the expression is interpreted twice, by numpy on a dummy and by h5py on the file, with different rules; that they agree is a statement about all expressions and shapes", "anchors": ["karabo_data/reader.py: DataCollection.get_array", "karabo_data/read_machinery.py: _SliceConstructable"]}
{"id": "C73", "title": "The devices and train_range arguments only restrict what is read", "statement": "train_from_id(t, devices=L) returns exactly the data of train_from_id(t) for the sources and keys matched by some pair of patterns in L and nothing else; train_from_index(i, devices=L) is train_from_id(train_ids[i], devices=L); trains(devices=L, train_range=tr) iterates over exactly the trains of select_trains(tr), in that order, with the data of train_from_id restricted to the matched sources and keys. A train ID which is not in the data is reported as such even if the selection is invalid; a pattern which matches nothing is a ValueError. This holds for every collection in which the sources matched with the key pattern \"*\" have not had keys selected before (there \"*\" brings all keys back).", "quantifier": "every collection obtained by opening, selecting and joining runs, every list of glob pairs, train range and train", "why_tests_cant": "selection, narrowing of trains and reading interact (files without a selected train are dropped, keys are looked up in the first remaining file); agreement must hold for every combination", "anchors": ["karabo_data/reader.py: DataCollection.trains", "karabo_data/reader.py: DataCollection.train_from_id", "karabo_data/reader.py: DataCollection.train_from_index"]}
{"id": "C74", "title": "Detector and train summaries agree with the files", "statement": "detector_info(source) reports, for the file of the source with the smallest name, a number of frames which a train there really has (0 only if no train there has frames), warns exactly when two trains there have different non-zero numbers, and total_frames is that number times the number of trains of the collection; if all trains in all files have 0 or n frames, get_array of the image data has at most total_frames rows, and exactly that many when no train is without frames. train_info(t) lists exactly the sources of the files holding train t, and raises ValueError for a train which is not in the collection. info() counts every fast data source exactly once, as a detector module or as another instrument source, and its example is the first module by name and number. For trains in decreasing order (a slice with a negative step) info() raises OverflowError, as the difference of the unsigned train IDs wraps around; otherwise the duration is that between the first and last train at ten trains per second.", "quantifier": "every collection reached by opening files and selecting, every source and train, and every choice set.pop may make", "why_tests_cant": "The estimate depends on which file comes first by name, on the order in which a set gives its elements and on the index of each file; tests look at a few mock runs in which all modules have the same number of frames.", "anchors": ["karabo_data/reader.py: DataCollection.detector_info", "karabo_data/reader.py: DataCollection.train_info", "karabo_data/reader.py: DataCollection.info", "karabo_data/reader.py: DataCollection.detector_sources"]}
{"id": "C75", "title": "The deprecated LPD geometry places every tile where the file says", "statement": "karabo_data.geometry: find_offset adds the offsets along a path of names, iter_leaf_paths gives exactly the paths to fragments without children; a geometry read from a file has tile t of module c at unit times (quadrant + module position) plus the tile position in millimetres. position_all_modules succeeds for every geometry with all 256 tiles and floating point data of shape (16, 256, 256): every tile lies in the image at least 20 pixels from its edge, each pixel of a tile appears at its place, turned by 180 degrees, unless a later tile covers it, and all other pixels are NaN. The tiles of a module are the same, in the same order, as in geometry2.", "quantifier": "every tree of fragments, every file contents, unit and quadrant positions, all data", "why_tests_cant": "Whether tiles fit depends on the extremes of all positions; the tests look at one file, the shape and two pixels.", "anchors": ["karabo_data/geometry.py: GeometryFragment", "karabo_data/geometry.py: LPDGeometry.from_h5_file_and_quad_positions", "karabo_data/geometry.py: LPDGeometry.position_all_modules", "karabo_data/geometry.py: LPDGeometry._plotting_dimensions", "karabo_data/geometry.py: splitChannelDataIntoTiles"]}
{"id": "C76", "title": "lsxfel counts files and trains as it says", "statement": "FilenameInfo accepts exactly names of four parts between dashes and tells detector files (AGIPD, DSSC, LPD with the module number) from aggregated data and unknown sources. lsxfel on a run prints the number of trains in a shortest sequence of segments, which is the number of trains of the run if all sequences have the same trains, and the numbers of detector files and of other data files; runs of a proposal are listed in order of name, every path gets its lines in order, and with several paths the exit code is 0 exactly if all are recognised.", "quantifier": "every path and file name, every directory listing and file contents, any number of paths", "why_tests_cant": "Names, listings and the choice of the sequence vary without bound; the tests look at one file and one run.", "anchors": ["karabo_data/read_machinery.py: FilenameInfo", "karabo_data/lsxfel.py: describe_file", "karabo_data/lsxfel.py: summarise_file", "karabo_data/lsxfel.py: summarise_run", "karabo_data/lsxfel.py: main"]}
{"id": "C77", "title": "Detector arrays are grids of modules, trains and pulses with every frame in its cell", "statement": "get_array of a detector component returns, for image data, an array with axes module, train and pulse, each in increasing order: the modules are all those of the detector, the trains and pulses those with at least one frame chosen by the pulse selection. The cell for a module, train and pulse holds exactly the frame which the files have for that module, train and pulse if it was chosen, and NaN if there is none - whatever the order and number of the files, the gaps between trains and the differences between the pulses of trains and modules. Making the grid never fails when the data can be read. For data with one value per train the axes are module and train in the same way; with several values per train the result is a ValueError unless all modules have the same train labels. It is also a ValueError if some modules have no values in any train while others have, or if the modules' values have different shapes.", "quantifier": "all runs, detectors, keys, pulse selections and cells of the array", "why_tests_cant": "The alignment of axes, the NaN filling and the order of concatenated parts depend on which trains and pulses are in which file of which module; tests compare a few cells of regular data.", "anchors": ["karabo_data/components.py: MPxDetectorBase.get_array, _get_module_pulse_data, _guess_axes"]}
{"id": "C78", "title": "karabo-data-make-virtual-cxi reads the run and writes the file its arguments mean, or writes nothing", "statement": "Given a run directory, in any spelling (relative, with dots or repeated slashes), the command reads that directory; given a proposal directory and a run number it reads proc/rNNNN of the proposal. It writes the file given with -o, or else a file in the scratch directory of the proposal whose name has the run and, for a run directory, raw or proc. It writes exactly when the run is readable, the directory of the file writable, and the run has an AGIPD detector, or no AGIPD but an LPD, whose virtual CXI file can be made with at least the given number of modules per train (default 9); the contents are those of write_virtual_cxi. In all other cases no file is written and the command ends with an error. Two different runs never have the same default file.", "quantifier": "all paths, current directories, run numbers, output names, access rights and runs", "why_tests_cant": "Spellings of paths, run numbers and combinations of failures are unbounded, and that two runs never overwrite each other's file is a statement about all pairs of runs; tests use one temporary directory.", "anchors": ["karabo_data/cli/make_virtual_cxi.py: main, _get_detector", "karabo_data/components.py: MPxDetectorBase.write_virtual_cxi"]}
{"id": "C79", "title": "get_dataframe lines its columns up by train", "statement": "In the table get_dataframe returns, the column of a field shows at each row (a train, or a train and pulse) the value the files hold for that train, and NaN where they hold none. The rows are the trains (pulses) for which some column has a value, and no others; if the fields are not all recorded for the same trains, the rows are in order of train and pulse, each once. A pulse ID repeated in one train raises ValueError as soon as another column has other rows.", "quantifier": "every set of files, every selection of fields, every train and pulse", "why_tests_cant": "which trains each field is missing differs from run to run; tests use files in which every field has every train", "anchors": ["karabo_data/reader.py:DataCollection.get_dataframe", "karabo_data/reader.py:DataCollection.get_series"]}
{"id": "C80", "title": "A virtual CXI file has the layout its readers look for", "statement": "Whenever the contents of a virtual CXI file can be determined, the file is written: identifiers, train and pulse IDs of the frames under entry_1 with one entry per frame, the module numbers and the virtual datasets (data, and gain and mask if the detector has them) under entry_1/instrument_1/detector_1 with dimensions frames, 16 modules and those of an item; entry_1/data_1 leads to exactly the same objects. The attribute axes of each dataset under the detector names all its dimensions in order, and for each name except y and x there is an array of that name next to the dataset which has the length of that dimension (the module labels are as many as the modules).", "quantifier": "all detectors, runs, dimensions of items, paths in the file", "why_tests_cant": "The datasets and axes depend on the dimensions of the data and on which of gain and mask exist; that every path through links gives consistent axes is a statement about all files.", "anchors": ["karabo_data/write_cxi.py: VirtualCXIWriter.write, collect_data"]}
{"id": "C81", "title": "Validation reports exactly the problems that are there", "statement": "For a file whose checks can be made (it has a TrainId dataset; every key of every instrument source has an index with at least one entry and data; first rows and counts are equally many, and below 2^52), the list of problems contains a problem exactly if what its message says is true of the file: zeroes before the end of the train IDs; the first place where train IDs do not increase, with the two numbers; the largest end of a train beyond the end of a dataset, with both numbers; too few index entries, with both numbers; a first train which does not start at row 0; the number of gaps and of overlaps between trains, with the position and the numbers of the first of them. If the numbers of first rows and counts differ and the checks finish, this is reported. For a run, a file is reported as not opened exactly if opening it failed, the run as having no usable files exactly if none could be opened, a file's problem exactly if it is true of one of the opened files, and a cached map entry exactly if it differs from the file.", "quantifier": "Every file contents within those limits, every list of files opened or not, every cached map with an entry for each file.", "why_tests_cant": "Each message combines numbers found by different array expressions over indexes of any length; a test can compare a few messages but not exclude false or missing reports.", "anchors": ["karabo_data/validation.py: FileValidator.run_checks, check_trainids, check_indices, check_index_contiguous", "karabo_data/validation.py: RunValidator.run_checks, check_files_openable, check_files, check_files_map"]}
{"id": "C82", "title": "karabo-data-validate checks the .h5 files of the directory and its exit status says whether something is wrong", "statement": "RunDirectory(path, include) opens exactly the files of the directory whose names end in .h5 and match the pattern, and raises if there are none. karabo-data-validate on a directory whose name has no *, ? or [ (with or without slashes at the end) validates exactly its files with names ending in .h5 and not starting with a dot, each once. If the checks can be made, the exit status is 0 or 1; it is 0 exactly if nothing is wrong, and then (and only then) 'No problems found' is printed; otherwise 'Validation failed!' and exactly the problems that are there. The same for a single file. Hidden files are opened by RunDirectory but not validated, and for a directory with pattern characters in its name other directories' files are validated in its place.", "quantifier": "Every directory listing, every name, every outcome of opening each file, every contents.", "why_tests_cant": "The set of files comes from pattern matching over arbitrary names; scripts rely on the exit status for every possible run.", "anchors": ["karabo_data/validation.py: main, RunValidator.__init__, ValidationError", "karabo_data/reader.py: RunDirectory"]}
{"id": "C83", "title": "Files closed by a with block can be read again; objects handed out earlier never give other data", "statement": "After any history of reading trains and arrays, iterating, making and computing dask arrays, entering and leaving with blocks and removing files, train_from_id and get_array of a collection give what its files hold, or OSError if one of its files was removed. The items an iterator over trains() gives are the trains in order, each once, then StopIteration; it fails in between only with OSError after a file was removed or ValueError after a with block over one of its files was left, and is then exhausted. A dask array computes to the rows it was made for, or fails with ValueError after such a block was left, and then for ever. Leaving a block closes exactly the files of the collection; only collections which opened their files may be used in a with statement.", "quantifier": "all collections over any set of files, all histories of any length interleaving any number of iterators, arrays, with blocks and removals", "why_tests_cant": "tests use one iterator inside one block; they cannot cover every interleaving of open handles, caches and kept dataset objects", "anchors": ["karabo_data/reader.py: FileAccess.file, FileAccess.close, DataCollection.__enter__, DataCollection.__exit__, TrainIterator, DataCollection.get_dask_array"]}
{"id": "C84", "title": "The CSV listing of a file's datasets is complete and readable", "statement": "hdf5_datasets never fails on a well-formed HDF5 file, whatever loops its links make. What it prints, read as CSV by any reader of quoted fields, is the header path, shape, dtype followed by one record per dataset, in strictly ascending order of the paths; each record is a dataset of the file under a path that leads to it, with its shape and type, and every dataset reachable through hard links is in exactly one record, also when names have commas, quotes or line breaks. If each object has one path, two files with the same listing have the same datasets. A dataset with several names is listed under one of them only.", "quantifier": "all graphs of groups, datasets, named types, hard and soft links, all names, shapes and types", "why_tests_cant": "Tests use one file with plain names; loops, several names for an object, and names needing quotes are unbounded families.", "anchors": ["karabo_data/h5index.py: hdf5_datasets", "karabo_data/h5index.py: main"]}
{"id": "C85", "title": "Written files pass validation and can be copied again", "statement": "A file made by write() or write_virtual() from an orderly collection (in order of trains, unambiguous names, valid indexes, every field readable) opens, and karabo-data-validate finds nothing wrong in it. A collection opened from a written file can itself be written: once the first copy succeeded every further copy does, and after any number of copies the trains, sources, keys, arrays and the data of each train are those of the original. Train IDs are unsigned 64-bit numbers and no dataset has 2^53 rows or more.", "quantifier": "all collections opened, selected and combined in any way which are orderly; all file names; any number of generations of copies", "why_tests_cant": "A test writes one small run and opens it once; that validation agrees with the writer, and that copying loses nothing however often it is repeated, concerns all contents and all chain lengths.", "anchors": ["karabo_data/writer.py: FileWriter, VirtualFileWriter", "karabo_data/validation.py: FileValidator", "karabo_data/reader.py: H5File, DataCollection.write, DataCollection.write_virtual"]}
{"id": "C86", "title": "The cached map of a run is kept in its directory or under a name of its own", "statement": "The places where the map of the files of a run is looked for and saved are karabo_data_map.json in the run directory and, when the real path of the directory ends in raw or proc, instrument, cycle, proposal and run and the scratch directory of that proposal exists, a file in that scratch directory. Two directories which share the file in the scratch space belong to the same kind of data, instrument, cycle, proposal and run, so that two different runs on the same storage never share one; the file in a run directory is never one in the scratch space. Exceptions: copies of a run below another root share the file, and names with a newline at the end are confused with those without.", "quantifier": "all directories and real paths without a newline and without a slash at the end; all answers of the file system about the scratch directory", "why_tests_cant": "The expression is matched against paths of any length and any names; that the constructed names never collide is a statement about all pairs of paths.", "anchors": ["karabo_data/run_files_map.py: RunFilesMap.map_paths_for_run"]}
{"id": "C87", "title": "Selections of trains can be split, joined, nested, and exchanged with selections of data", "statement": "Parts of a collection made with select_trains can be joined with union again: this never raises, the result has exactly the trains of the parts, sorted and each once, and the same sources, keys and files for every train as selecting all these trains at once; parts which together have all trains give back the whole collection. Selecting trains from selected trains is the same as selecting the final ones directly. If trains and then data can be selected (or deselected), then data and then trains can be, with the same result. Exception: the other way round, selecting the trains first can drop all files of a source, so that selecting this source then raises ValueError.", "quantifier": "all collections reachable from opened files by selections and unions whose files of a source have the same keys, all lists of train selections, all proper arguments of select and deselect", "why_tests_cant": "The parts may overlap, come in any order and number, and each drops its own files; the laws must hold for every such combination and every history of the collection.", "anchors": ["karabo_data/reader.py: DataCollection.select_trains, DataCollection.union, DataCollection.select, DataCollection.deselect"]}
{"id": "C88", "title": "The text of the cached map is read back exactly, and a damaged one is recognised", "statement": "The map of a run which is saved as JSON is the map which is loaded again: every file name, size, modification time, train ID and source name comes back unchanged, whatever characters the names contain. Reading any other text gives a value or JSONDecodeError, and any first part of a saved map, cut off at any character, gives JSONDecodeError, so that it is ignored and does not keep the run from being opened. With any number of processes saving and reading at the same time, each reader gets a complete map, or what was in the file before.", "quantifier": "all JSON values with valid strings and no key twice, all maps, all texts and all cut-off points, all interleavings of saving and reading processes", "why_tests_cant": "The map contains names chosen by users and times of any precision; the escape rules and the points where a text can be cut off are unlimited.", "anchors": ["karabo_data/run_files_map.py: atomic_dump, RunFilesMap.load, RunFilesMap.save"]}
{"id": "C89", "title": "The bytes of a streamed message determine the data", "statement": "A client which receives only the bytes of the parts of a message (protocol 2.2) and unpacks them according to the msgpack specification gets the data passed to feed(): integers of up to 64 bits, floats by their bits, strings, bytes, lists and dictionaries of any size and depth. Packed values are self-delimiting: different values have different bytes, and no packed value is the beginning of another. Only strings, bytes, lists and dictionaries of 2^32 elements and more are refused, with ValueError.", "quantifier": "all data and metadata msgpack can pack, all values inside them, all states of the memory at the time of sending which keep the arrays", "why_tests_cant": "The format has ten ways to write an integer and four for a string, chosen by size; each boundary and each nesting has to be right for every value.", "anchors": ["karabo_data/export.py: ZMQStreamer.__init__, ZMQStreamer._serialize, ZMQStreamer.feed"]}
{"id": "C90", "title": "The listing of an HDF5 file shows what is in it", "statement": "hdf5_paths prints, in the order of the file, the names of all objects reached through the first maxlen members of each group, indented by their depth; the text determines the nesting, the names and which of the objects are groups, if no group has more than maxlen members and no name starts with a space or has a line break. It fails exactly if one of the links is broken, with KeyError. A negative maxlen -k leaves out the last k members of each group.", "quantifier": "all trees of groups and datasets, all names, all maxlen >= 0 and indentations; which names are printed, and failing, also for negative maxlen", "why_tests_cant": "The number, nesting and names of the objects are unbounded; that a listing can be read back is a statement about pairs of files.", "anchors": ["karabo_data/utils.py: hdf5_paths"]}
{"id": "C91", "title": "The image converted to CBF is the one asked for", "statement": "hdf5_to_cbf writes a file exactly if the input has a list of sources (format 0.5), one of which ends in 'image' and has data with the index given; the file has the image with that index (from the end if negative) of the first such source. The header argument is ignored.", "quantifier": "all files, source lists, indices", "why_tests_cant": "The position of the image source in the list and the index are arbitrary.", "anchors": ["karabo_data/utils.py: hdf5_to_cbf, numpy_to_cbf"]}
{"id": "C92", "title": "Plots of the layout show the tiles where they are", "statement": "inspect() draws, for each tile and nothing else, the polygon of exactly its points in the unit of the axes, with first pixel, first row, tile and module names in place, x inverted for a front view; any other unit is a ValueError. compare() draws the tiles of the first geometry and, for the first and the opposite corner of every tile which moved, one arrow from where it was in the direction it moved, scaled; a tile missing from the other geometry is an IndexError.", "quantifier": "all geometries, both units and views, all pairs of geometries and scales", "why_tests_cant": "Positions and directions of tiles are arbitrary vectors and a polygon has infinitely many points.", "anchors": ["karabo_data/geometry2/__init__.py: DetectorGeometryBase.inspect, _get_plot_scale_factor, AGIPD_1MGeometry.inspect, compare, LPD_1MGeometry.inspect, DSSC_1MGeometry.inspect"]}
{"id": "C93", "title": "Plots of data show each pixel where it is", "statement": "plot_data_fast shows in the middle of each cell of the pixel grid the data of the pixel assembled there and nothing else, and whatever it shows anywhere belongs to a cell at most one pixel away; for AGIPD and LPD the first pixel of a tile is within one pixel of the place where inspect() draws it, in both units. Other units and more than one frame are a ValueError, other shapes an AssertionError. Options for imshow replace only what they name.", "quantifier": "all snappable geometries, data, units, views and options", "why_tests_cant": "Detector positions, and with them the size of the image and its placement on the axes, are unbounded.", "anchors": ["karabo_data/geometry2/__init__.py: DetectorGeometryBase.plot_data_fast, SnappedGeometry.plot_data, DSSC_1MGeometry.plot_data_fast"]}
{"id": "C94", "title": "Only the chosen data are served", "statement": "serve_files sends, for any schedule of the server and its clients, one message per train in order, made of exactly the sources which the patterns hit and of these the keys hit, with the values of the whole run; if nothing is hit it is a ValueError before serving. The command is documented to do the same for --source and --key; it serves everything whatever they are.", "quantifier": "all runs and files, patterns, serialisations and schedules", "why_tests_cant": "Patterns, contents of the run and schedules are unbounded, and a message must be complete and contain nothing else.", "anchors": ["karabo_data/export.py: serve_files, main"]}
{"id": "C95", "title": "Deprecated and present LPD geometry agree", "statement": "Reading a geometry file with the deprecated code, and reading it with the present code after conversion with invert_xfel_lpd_geom and negated quadrant positions, gives the same detector: every point of every tile is at the same place, in coordinates which point the other way. Images assembled from the same data have every pixel with its value at opposite places as seen from the centre, up to one pixel (positions are rounded down by the one and to the nearest pixel by the other).", "quantifier": "all geometry files, quadrant positions and data", "why_tests_cant": "The positions in a file and of the quadrants are arbitrary; tests of either code use one file, and none compares the two.", "anchors": ["karabo_data/geometry.py: LPDGeometry.from_h5_file_and_quad_positions, position_all_modules", "karabo_data/geometry2/__init__.py: invert_xfel_lpd_geom, LPD_1MGeometry.from_h5_file_and_quad_positions, position_modules_fast"]}
{"id": "C96", "title": "Plots and printed form of the deprecated geometry", "statement": "inspect colours exactly the cells at which position_all_modules puts data, in an image of the same size with the same centre, names all modules and numbers tiles 1, 8 and 9 of each where they start; plot_data draws the assembled image. Printing a geometry gives one line for every fragment under its parent, in the order of names, indented by depth.", "quantifier": "all geometries and data", "why_tests_cant": "Geometries are arbitrary trees with arbitrary positions; tests only check that a figure is returned.", "anchors": ["karabo_data/geometry.py: LPDGeometry.plot_data, inspect, GeometryFragment.__str__"]}
{"id": "C97", "title": "Stacked train data and labelled detector arrays agree", "statement": "For an image key, the frames which stack_detector_data puts together from the data of one train are those of the detector's labelled array: the cell of module n, train t and pulse ID p holds the frame which the stacked array has at module n, at the position of p among the pulses of the train; and every frame of a module in the stacked array is such a cell.", "quantifier": "all detectors, runs, trains, keys of the images, axes and numbers of modules for which stacking succeeds", "why_tests_cant": "The two paths read files in different ways (by train; by file and pulse), and tests compare neither with the other.", "anchors": ["karabo_data/stacking.py: stack_detector_data", "karabo_data/components.py: MPxDetectorBase.get_array", "karabo_data/reader.py: DataCollection.train_from_id"]}
{"id": "C98", "title": "The text of info() is unambiguous", "statement": "The duration printed by info() is the text Python's documentation gives for the time between the first and last train, and no other duration has that text. If info() prints the same text for two collections, they have the same number of trains, first and last train ID, duration, number of detector modules, detector names, example module with its dimensions and frame numbers, and the same lists of instrument and control sources.", "quantifier": "all collections for which info() succeeds, with names without line breaks and detector names without commas", "why_tests_cant": "The text depends on all numbers and names in the collection; a test compares a few printed words at most.", "anchors": ["karabo_data/reader.py: DataCollection.info"]}
{"id": "C99", "title": "Assembling many frames at once", "statement": "position_modules_fast() on data with any number of extra leading dimensions gives an array with these dimensions followed by those of an image, in which every frame is the image which this frame of the data alone gives, with the same centre; it fails exactly as a single frame fails. An array made by output_array_for_position_fast() for the same dimensions gives the same result as none, and the result of one call can be used as output array for other data with the same result as a new one.", "quantifier": "all geometries aligned to the axes, all numbers and sizes of leading dimensions, all data and output arrays", "why_tests_cant": "Frames and leading dimensions are unbounded; tests assemble one or two arrays of fixed shape.", "anchors": ["karabo_data/geometry2/__init__.py: SnappedGeometry.position_modules, SnappedGeometry.make_output_array, GridGeometryFragment.transform, AGIPD_1MGeometry.split_tiles, LPD_1MGeometry.split_tiles, DSSC_1MGeometry.split_tiles"]}
{"id": "C100", "title": "Dimensions and pixels of detector arrays", "statement": "The array returned by the get_array() method of a detector has the dimensions module, train and pulse, followed by those of a frame: none, slow_scan and fast_scan, or data_gain, slow_scan and fast_scan; their lengths are the shape of the frames read. Every element is the pixel stored in the files for that module, train, pulse and position in the frame (a first axis of length 1 in the file is left out), and NaN where no such frame was read. For data with one value per train the dimensions are module, trainId, dim_0, dim_1 and so on, and the elements are those of the values of the modules.", "quantifier": "all detectors opened from any files, all keys, pulse selections, shapes of frames and positions in a frame", "why_tests_cant": "Numbers of modules, trains, pulses and pixels are unbounded, and a permutation of axes can go unnoticed for the square or constant frames of tests.", "anchors": ["karabo_data/components.py: _guess_axes, MPxDetectorBase._get_module_pulse_data, MPxDetectorBase.get_array", "karabo_data/reader.py: DataCollection.get_array"]}
{"id": "C101", "title": "Text printed by lsxfel", "statement": "What lsxfel prints, up to its end or an exception, tells for each path the values found, in order: the name, then numbers as decimal numerals, and one line for each source. The line of a run tells its name, the number of trains in a shortest sequence of its files and the numbers of detector files and of other files, right-aligned. Two calls which print the same text have found the same values, line by line, if names have no line breaks and names of data files no colons, quotes or backslashes.", "quantifier": "all paths, file systems, contents of files and runs; all calls, also those which end in an exception", "why_tests_cant": "The text depends on all files of a proposal, and two outputs must be told apart whatever names and numbers occur.", "anchors": ["karabo_data/lsxfel.py: describe_file, summarise_file, describe_run, summarise_run, main"]}
{"id": "C102", "title": "Report of karabo-data-validate", "statement": "What karabo-data-validate prints tells each problem found, in order: what is wrong with its numbers as decimal numerals, the dataset and the file. Two reports with the same text state the same problems of the same datasets and files, if names and texts of errors have no line breaks.", "quantifier": "all lists of problems, names, numbers, positions and texts of errors", "why_tests_cant": "Any number of problems with any names and numbers may follow one another, and none must be mistaken for another.", "anchors": ["karabo_data/validation.py: ValidationError.__str__, FileValidator, RunValidator, main"]}
{"id": "C103", "title": "Messages of exceptions", "statement": "If a source, a property of a source or a train is not in the data, the exception raised has a message which names it: source and property as Python string literals, the train ID as decimal numeral. If it is there, no such message is made. Messages tell which source, property or train was asked for: whatever characters names contain, different requests have different messages.", "quantifier": "all collections, sources, keys and train IDs, with any characters in names, also quotes, backslashes and control characters", "why_tests_cant": "Names may contain any characters, also quotes and those used by the message itself.", "anchors": ["karabo_data/exceptions.py: SourceNameError, PropertyNameError, TrainIDError", "karabo_data/reader.py: DataCollection._check_field, train_from_id"]}
{"id": "C104", "title": "Bytes of messages of protocol 1.0", "statement": "A client of protocol 1.0 which only has the bytes of a message and reads them with msgpack and msgpack_numpy gets the data passed to feed(), with the types of numbers and arrays of numpy, also with dummy timestamps. No packed value is the beginning of another one. Only texts, containers and arrays of 2^32 bytes or entries and more are refused, with ValueError.", "quantifier": "all data: nested values, numbers of all integer, floating point and complex types of numpy in the range of their type, arrays of any shape and memory layout", "why_tests_cant": "Any nesting of values and any array must be recovered from a single sequence of bytes.", "anchors": ["karabo_data/export.py: ZMQStreamer.__init__, _serialize, feed"]}
{"id": "C105", "title": "Text of CrystFEL geometry files", "statement": "Reading the text of a written geometry file by the rules of the format (key = value, a semicolon starts a comment, blanks do not count) gives exactly the written values in their order, and so the same geometry; this needs paths without semicolons and line breaks and numbers whose text reads back. Values not given are left as SET ME comments. The text is refused with ValueError exactly when no dimension is that of the frames. A path with a semicolon is cut there.", "quantifier": "all detectors, geometries, lists of dimensions, arguments and ways of writing numbers which can be read back", "why_tests_cant": "Every tile, number and path must come out of one text whose comments and separators could occur in values.", "anchors": ["karabo_data/geometry2/crystfel_fmt.py: write_crystfel_geom, frag_to_crystfel, get_rigid_groups, _crystfel_format_vec, HEADER_TEMPLATE, PANEL_TEMPLATE", "karabo_data/geometry2/__init__.py: write_crystfel_geom, from_crystfel_geom"]}
{"id": "C106", "title": "Floating point rounding does not move tiles", "statement": "For AGIPD and LPD geometries made from quadrant positions, and LPD and DSSC ones made from a geometry file, the image assembled by position_modules_fast with float64 arithmetic, every operation rounded, equals the image of exact arithmetic, whenever no tile corner lies within 1e-8 pixels of the middle between two pixels; AGIPD positions and gaps of whole pixels always satisfy this. At a middle it fails: with the quadrant at 542.5 pixels used in the documentation, float64 places the first row of tile 6 of module 12 where exact arithmetic leaves the gap to tile 5. Wherever the tiles lie, the x and y coordinates of their corners and pixel steps are within 1.5e-13 m of the exact ones. All tiles of these geometries lie exactly in the plane z = 0.", "quantifier": "All quadrant positions (up to 100000 pixels for AGIPD, 20 m for LPD, 1000 units in files), gaps, units between 0.1 mm and 1 cm for LPD and DSSC, data, output arrays, and every arithmetic whose error per operation is at most float64's", "why_tests_cant": "The result of each rounding depends on the particular numbers; tests try a few positions and never compare with exact arithmetic", "anchors": ["karabo_data/geometry2/__init__.py: AGIPD_1MGeometry.from_quad_positions, LPD_1MGeometry.from_quad_positions, LPD_1MGeometry.from_h5_file_and_quad_positions, DSSC_1MGeometry.from_h5_file_and_quad_positions, GeometryFragment.snap, position_modules_fast"]}
{"id": "C107", "title": "Rounding in CrystFEL files does not move pixels", "statement": "Reading a CrystFEL geometry file with float64 arithmetic gives a geometry whose image assembled by position_modules_fast equals the image of exact arithmetic, and files are refused with the same exceptions. A geometry written by write_crystfel_geom and read back by from_crystfel_geom, all in float64, gives the same images as before, although its coordinates may differ in the last binary place. No corner or step of a tile may lie within 1e-8 pixels of the middle between two pixels. Every coordinate of a tile read from a file, the one along the beam included, is within 1.5e-13 m of the exact one, and so is every coordinate of a geometry written and read back.", "quantifier": "All AGIPD, LPD and DSSC geometries with coordinates up to 20 m, all files with between 1 and 10^9 pixels per metre in their panels, all dimension lists with a frame, all optional arguments, data and output arrays, and every arithmetic whose error per operation is at most float64's", "why_tests_cant": "A test writes and reads a few geometries and compares coordinates to within a tolerance; that no pixel moves for any geometry depends on the rounding of each number", "anchors": ["karabo_data/geometry2/crystfel_fmt.py: write_crystfel_geom, frag_to_crystfel", "karabo_data/geometry2/__init__.py: GeometryFragment.from_panel_dict, from_crystfel_geom, GeometryFragment.snap, position_modules_fast"]}
{"id": "C108", "title": "Rounding errors with the deprecated LPD geometry", "statement": "Reading an LPD geometry file with the deprecated geometry class and assembling an image with it in float64 gives the same image, size and centre as exact arithmetic, provided that no tile starts within 1e-8 pixels of a pixel boundary. Wherever tiles are, their offsets are right to 1e-13 m, and the pixel at which a tile starts, counted from the centre, is the one of exact arithmetic or one next to it. Files which cannot be read are refused alike. Unlike the other geometries, tiles placed at whole pixels are not kept there: they can move by a pixel, and the size and the centre of the image with them.", "quantifier": "all geometry files with positions up to 5 m and tiles up to three names down, all quadrant positions, all units between a micrometre and a metre, all data, and every arithmetic whose error per operation is at most float64's", "why_tests_cant": "A test uses one file and one set of positions and compares images with those it made before; which positions are moved by a pixel depends on the rounding of each of them", "anchors": ["karabo_data/geometry.py: GeometryFragment.from_h5_group, GeometryFragment.find_offset, LPDGeometry.from_h5_file_and_quad_positions, LPDGeometry.position_all_modules, LPDGeometry._plotting_dimensions"]}
{"id": "C109", "title": "Rounding errors in pixel positions and distortion arrays", "statement": "With float64 arithmetic, the positions of the corners and centres of pixels from get_pixel_positions and the positions from data_coords_to_positions are right to 5e-15 m in each coordinate, so that the two agree to 1e-14 m. The corners of pixels in the distortion array, which is in float32, are right to 0.2 micrometres, or to one micrometre from the shifted origin; with the shift no x or y in the array is negative and the smallest of each is exactly zero. When the geometry is read from a CrystFEL file, or written to one and read back, also in float64, the corners of pixels are right to 1e-10 m. So they are for geometries made, in float64, from quadrant positions or from an LPD or DSSC geometry file.", "quantifier": "all geometries of the three detectors with tiles within a metre of the origin and pixels of up to a millimetre, all pixels, all fractions of a pixel, both settings of centre and allow_negative_xy, and every arithmetic whose errors per operation are at most those of float64 and float32", "why_tests_cant": "Tests compare a few positions with expected numbers to within a tolerance; the bound has to hold for each of a million pixels of every geometry", "anchors": ["karabo_data/geometry2/__init__.py: DetectorGeometryBase.get_pixel_positions, data_coords_to_positions, to_distortion_array, _adjust_pixel_coords, _module_coords_to_tile, _pixel_corners"]}
