{"id": "C01", "title": "A TimeFrame is never inverted, after any history of edits", "statement": "Whatever sequence of constructions and assignments to .start/.end a program performs (each one either succeeding or raising ValueError), a TimeFrame that has both a start and an end has start < end; a rejected assignment leaves the object unchanged; and the outcome (accept/reject) is exactly 'would the result be ordered?'. While .enabled is False the check compares with None, so the invariant can be broken and is visible once the frame is re-enabled.", "quantifier": "every pair of optional timestamps given to the constructor and every finite sequence of start/end/enabled assignments", "why_tests_cant": "the set of edit histories is infinite; a unit test fixes a handful of timestamps", "anchors": ["nilmtk/timeframe.py: TimeFrame.__init__, start, end setters, enabled"]}
{"id": "C02", "title": "TimeFrame.intersection is the set intersection of the two periods", "statement": "An instant t lies in a.intersection(b) (half-open, None = unbounded) iff it lies in a and in b. The result is flagged empty iff no such instant exists, it is never inverted, and intersection is commutative, associative and idempotent as a set operation.", "quantifier": "every pair (triple) of time frames, bounded, half-bounded, unbounded or empty, and every instant", "why_tests_cant": "infinitely many relative positions of end points including ties, unbounded ends and empties", "anchors": ["nilmtk/timeframe.py: TimeFrame.intersection, empty, __eq__"]}
{"id": "C03", "title": "Intersection respects whether the end point is included", "statement": "When frames carry include_end, the end instant belongs to the intersection iff it belongs to both frames. (The code takes include_end from the *other* frame on ties, so this fails for one order of arguments and the operation is not commutative on include_end; the exact condition under which it is right is stated.)", "quantifier": "every pair of time frames with include_end flags, every instant", "why_tests_cant": "the flaw only shows when both ends are equal and the flags differ, which tests do not exercise", "anchors": ["nilmtk/timeframe.py: TimeFrame.intersection, include_end"]}
{"id": "C04", "title": "split(threshold) tiles the time frame exactly", "statement": "For a bounded frame and threshold > 0, list(tf.split(threshold)) terminates, the first piece starts at tf.start, the last ends at tf.end, each piece starts where the previous one ended, every piece is non-inverted and no longer than threshold, all but the last are exactly threshold long; so each instant of tf is in exactly one piece and no other instant is in any piece. If threshold >= duration the single result is tf itself.", "quantifier": "every bounded time frame and every positive threshold", "why_tests_cant": "the number of pieces is unbounded; off-by-one at exact multiples needs all ratios", "anchors": ["nilmtk/timeframe.py: TimeFrame.split, split_timeframes"]}
{"id": "C05", "title": "merge_timeframes neither loses nor invents time except across allowed gaps", "statement": "For a list of bounded frames sorted by start and not overlapping, merge_timeframes(frames, gap) returns frames that cover every instant covered by an input; every extra instant lies in a gap of at most `gap` between two consecutive inputs; with gap=0 covered time is exactly preserved; no two consecutive results are within gap; merging again changes nothing.", "quantifier": "every list of ordered non-overlapping bounded frames of any length and every gap >= 0", "why_tests_cant": "arbitrary list lengths and gap patterns", "anchors": ["nilmtk/timeframe.py: merge_timeframes, TimeFrame.adjacent, TimeFrame.union, list_of_timeframes_from_list_of_dicts"]}
{"id": "C06", "title": "TimeFrame survives to_dict / from_dict", "statement": "TimeFrame.from_dict(tf.to_dict()) describes the same set of instants as tf, so metadata written to disk and read back means the same. (Holds exactly for non-empty frames whose end is excluded; the empty frame comes back as the unbounded frame.)", "quantifier": "every time frame", "why_tests_cant": "all combinations of missing ends and flags", "anchors": ["nilmtk/timeframe.py: TimeFrame.to_dict, from_dict, list_of_timeframe_dicts"]}
{"id": "C07", "title": "TimeFrameGroup.intersection is instant-wise, and uptime is additive", "statement": "An instant lies in some frame of g.intersection(h) iff it lies in some frame of g and some frame of h. If neither g nor h has overlapping frames, neither has the result, and its uptime is at most the uptime of each; uptime is the measure of the covered set, independent of how it is cut.", "quantifier": "every pair of TimeFrameGroups of any size", "why_tests_cant": "quadratically many frame pairs, unbounded lists", "anchors": ["nilmtk/timeframegroup.py: intersection, uptime, remove_shorter_than"]}
{"id": "C08", "title": "remove_shorter_than keeps exactly the long frames in order", "statement": "remove_shorter_than(t) leaves exactly those frames whose duration is >= t (strictly: removes those < t), preserving order and multiplicity, and applying it twice with thresholds s and t equals applying it once with max(s,t).", "quantifier": "every group of bounded frames and thresholds", "why_tests_cant": "unbounded lists", "anchors": ["nilmtk/timeframegroup.py: remove_shorter_than"]}
{"id": "C09", "title": "HDF load delivers exactly the rows of window ∩ sections, in order", "statement": "For each requested section, the chunks yielded by the HDF5 store's load, after removing the one row each chunk shares with its predecessor, concatenate to exactly the stored rows whose timestamp is in window ∩ section, in stored order; every chunk has at most chunksize+1 rows. (Fails for a section that matches exactly one row, which yields nothing, and for a fully unbounded load of k*chunksize+1 rows, which raises; the exact boundary is proved.)", "quantifier": "every stored table, section list, window and chunk size", "why_tests_cant": "boundary arithmetic over all sizes and chunk sizes", "anchors": ["nilmtk/datastore/hdfdatastore.py: HDFDataStore.load"]}
{"id": "C10", "title": "Chunk look-ahead is exactly the following rows", "statement": "With n_look_ahead_rows = n, the look_ahead attached to a chunk is exactly the next (up to) n stored rows after the chunk's last row, so statistics that peek across chunk boundaries see the true continuation.", "quantifier": "every table, chunk size and n", "why_tests_cant": "boundary arithmetic over all sizes", "anchors": ["nilmtk/datastore/hdfdatastore.py: HDFDataStore.load look_ahead"]}
{"id": "C11", "title": "power_series_all_data returns each sample exactly once", "statement": "Concatenating the chunks as Electric.power_series_all_data does yields the stored in-window samples of the sections, each exactly once and in time order, whatever the chunk size.", "quantifier": "every table with strictly increasing timestamps and every chunk size", "why_tests_cant": "independent of chunk size is a universally quantified claim", "anchors": ["nilmtk/electric.py: power_series_all_data", "nilmtk/datastore/hdfdatastore.py: load"]}
{"id": "C12", "title": "CSV load partitions the in-window rows", "statement": "The chunks produced by the CSV store's load are consecutive, disjoint and together contain exactly the stored rows in window ∩ section once each, and the look-ahead rows attached to each chunk are the rows that follow it.", "quantifier": "every file, section list, chunk size", "why_tests_cant": "boundary arithmetic over all sizes", "anchors": ["nilmtk/datastore/csvdatastore.py: CSVDataStore.load"]}
{"id": "C13", "title": "Good sections are exactly the maximal gap-free runs", "statement": "For one chunk of time-stamped samples, get_good_sections returns exactly the maximal runs (of at least two samples) of consecutive samples whose spacing is <= max_sample_period, in order, disjoint; the internal length assertion never fails.", "quantifier": "every sorted list of timestamps, every max_sample_period", "why_tests_cant": "all gap patterns of all lengths", "anchors": ["nilmtk/stats/goodsections.py: get_good_sections"]}
{"id": "C14", "title": "Good sections do not depend on how the data was chunked", "statement": "Running GoodSections over overlapping chunks (as the store yields them, with look-ahead) and combining gives the same sections as running it once over the whole series.", "quantifier": "every series and every chunking the loader produces", "why_tests_cant": "chunk boundaries can fall at any place relative to gaps", "anchors": ["nilmtk/stats/goodsections.py: GoodSections", "nilmtk/stats/goodsectionsresults.py: combined"]}
{"id": "C15", "title": "Energy from power is the capped left-rectangle integral and does not depend on chunking", "statement": "_energy_for_power_series is the sum over consecutive valid samples of power × min(Δt, max_sample_period) in kWh; over chunks that share one boundary row (as the store yields), the per-chunk energies add up to the whole-series energy; it is monotone and non-negative for non-negative power. (NaN at a shared boundary row breaks additivity; the exact condition is proved.)", "quantifier": "every power series, every chunking, every max_sample_period", "why_tests_cant": "all chunkings of all series", "anchors": ["nilmtk/stats/totalenergy.py: _energy_for_power_series, get_total_energy", "nilmtk/stats/totalenergyresults.py"]}
{"id": "C16", "title": "Energy from cumulative meters telescopes; energy from interval meters does not double count", "statement": "For cumulative-energy columns the chunk results add up to last − first reading. For interval 'energy' columns the chunk results should add up to the sum of readings (they do not: the row shared by consecutive chunks is counted twice).", "quantifier": "every series and chunking", "why_tests_cant": "all chunkings of all series", "anchors": ["nilmtk/stats/totalenergy.py: get_total_energy"]}
{"id": "C17", "title": "Dropout rate is a proportion", "statement": "get_dropout_rate never trips its own assertion: for any sorted series it is NaN or in [0,1]; it is 0 for a perfectly sampled series; the combined rate is the sample-weighted mean of the per-chunk rates.", "quantifier": "every sample index and sample period", "why_tests_cant": "rounding at every duration/period ratio", "anchors": ["nilmtk/stats/dropoutrate.py", "nilmtk/stats/dropoutrateresults.py"]}
{"id": "C18", "title": "Unified dropout rate of a group is the mean over meters", "statement": "Unifying the dropout-rate results of n meters gives their arithmetic mean regardless of order. (It does not for n >= 3: the code averages pairwise.)", "quantifier": "every list of meters", "why_tests_cant": "needs more than two meters with different rates", "anchors": ["nilmtk/stats/dropoutrateresults.py: unify", "nilmtk/metergroup.py: dropout_rate, _collect_stats"]}
{"id": "C19", "title": "Results never hold overlapping time frames", "statement": "After any sequence of successful append/update operations the time frames stored in a Results object are pairwise non-overlapping, sorted by start, and no stored row has been lost or altered; an append that would overlap is rejected and changes nothing.", "quantifier": "every history of appends and updates", "why_tests_cant": "histories are unbounded", "anchors": ["nilmtk/results.py: append, check_for_overlap, update"]}
{"id": "C20", "title": "Results do not depend on the order chunks are appended", "statement": "Appending the same non-overlapping (timeframe, result) pairs in any order gives the same stored table and hence the same combined() value.", "quantifier": "every permutation of every list of results", "why_tests_cant": "factorially many orders", "anchors": ["nilmtk/results.py: append, combined"]}
{"id": "C21", "title": "Results.update is atomic and unify adds pointwise", "statement": "update either absorbs every row of the other results or raises and leaves self unchanged; unify adds other's value to self's for exactly the matching time frames. (update mutates before checking, so a failed update leaves the overlapping rows behind.)", "quantifier": "every pair of Results", "why_tests_cant": "needs all overlaps", "anchors": ["nilmtk/results.py: update, unify"]}
{"id": "C22", "title": "Cached statistics equal recomputed statistics", "statement": "For any sequence of statistic requests over any sections, the answer served with the cache equals the answer computed from scratch. (Proved for whole sections inside the window and one chunk per section; refuted in the general case by clipped sections being double-counted.)", "quantifier": "every history of requests on a meter", "why_tests_cant": "depends on unbounded histories", "anchors": ["nilmtk/elecmeter.py: _get_stat_from_cache_or_compute, get_cached_stat", "nilmtk/results.py: import_from_cache, export_to_cache"]}
{"id": "C23", "title": "Cache keys identify meters and statistics", "statement": "Two different (dataset, building, meter, statistic) requests never share a cache key.", "quantifier": "every pair of meters and statistics", "why_tests_cant": "needs all identifiers", "anchors": ["nilmtk/elecmeter.py: key_for_cached_stat", "nilmtk/metergroup.py: identifier"]}
{"id": "C24", "title": "Pipeline requirement checking is sound and complete", "statement": "check_requirements succeeds iff every leaf of the requirements tree is present in the upstream metadata with an equal value (or any value when 'ANY VALUE'), and the reported list names exactly the unsatisfied requirements.", "quantifier": "every pair of nested dictionaries of any depth", "why_tests_cant": "unbounded depth and width", "anchors": ["nilmtk/node.py: find_unsatisfied_requirements, Node.check_requirements"]}
{"id": "C25", "title": "Clip puts every value in range and changes nothing else", "statement": "With lower <= upper, Clip maps each value to the nearest point of [lower, upper], leaves in-range values and NaNs alone, keeps the index, is idempotent, monotone and independent of chunking.", "quantifier": "every series and limits", "why_tests_cant": "all values", "anchors": ["nilmtk/preprocessing/clip.py"]}
{"id": "C26", "title": "Best AC type selection", "statement": "select_best_ac_type returns an available type; the choice follows the documented preference order (preferring the mains' type when it is available), depends only on the set of available types, and raises only if none is available.", "quantifier": "every list of available types and mains types", "why_tests_cant": "all subsets and orders", "anchors": ["nilmtk/measurement.py: select_best_ac_type"]}
{"id": "C27", "title": "Column selection only ever asks for columns the meter has", "statement": "Whatever combination of physical_quantity / ac_type / columns the caller gives, the columns loaded from disk are exactly those available on the meter that match the request ('best' asks for the preferred AC type of each requested quantity); if there is none, MeasurementError is raised. Explicit columns are loaded as given if all are available, and cannot be combined with the other two arguments.", "quantifier": "every metadata and request", "why_tests_cant": "combinatorially many requests", "anchors": ["nilmtk/elecmeter.py: _convert_physical_quantity_and_ac_type_to_cols, available_columns"]}
{"id": "C28", "title": "Datastore keys round-trip", "statement": "Key(str) parses what repr(Key) prints; distinct (building, meter) give distinct strings; join_key produces a single-slash-separated absolute path whatever slashes its arguments carry.", "quantifier": "every key and list of path fragments", "why_tests_cant": "all strings", "anchors": ["nilmtk/datastore/key.py", "nilmtk/datastore/datastore.py: join_key"]}
{"id": "C29", "title": "find_nearest returns the closest element", "statement": "For every target the returned index is in range and the element at that index has minimal distance to the target among all elements; the residual is target minus that element.", "quantifier": "every non-empty list (any order, duplicates) and every list of targets", "why_tests_cant": "all orders and ties", "anchors": ["nilmtk/utils.py: find_nearest"]}
{"id": "C30", "title": "Combinatorial optimisation is optimal", "statement": "CO.disaggregate_chunk assigns to each appliance one of its learnt states, and no other combination of learnt states has a total closer to the measured mains power.", "quantifier": "every learnt model (any number of appliances/states), every mains reading", "why_tests_cant": "exponentially many combinations", "anchors": ["nilmtk/disaggregate/combinatorial_optimisation.py", "nilmtk/legacy/disaggregate/combinatorial_optimisation.py"]}
{"id": "C31", "title": "Histograms add over chunks", "statement": "The histogram over several chunks equals the histogram of the concatenated data with the same bins; the total count is the number of samples within range.", "quantifier": "every list of chunks and bin edges", "why_tests_cant": "all chunkings", "anchors": ["nilmtk/stats/histogram.py"]}
{"id": "C32", "title": "get_activations finds exactly the on-periods", "statement": "Returned activations are disjoint, ordered, each at least min_on_duration long, separated by at least min_off_duration, contain the requested border, and with zero thresholds are exactly the maximal runs at or above the on-power threshold; it never raises on valid series.", "quantifier": "every power series and parameters", "why_tests_cant": "all on/off patterns", "anchors": ["nilmtk/electric.py: get_activations"]}
{"id": "C33", "title": "The Mean disaggregator predicts the mean however it was trained", "statement": "After any sequence of partial_fit calls the predicted value is the mean of all training readings, independent of chunking. (The code truncates each chunk's sum to int, so chunking matters; the error is bounded by the number of chunks / number of samples.)", "quantifier": "every training set and chunking", "why_tests_cant": "all chunkings", "anchors": ["nilmtk/disaggregate/mean.py"]}
{"id": "C34", "title": "A MeterGroup's load is the sum of its meters", "statement": "At each timestamp the group's value for power/energy columns is the sum over meters with a valid reading (NaN iff none), and for averaged quantities the mean; the result does not depend on the order of the meters.", "quantifier": "every set of meters with any missing data pattern", "why_tests_cant": "all NaN patterns and orders", "anchors": ["nilmtk/metergroup.py: load, combine_chunks_from_generators", "nilmtk/measurement.py: PHYSICAL_QUANTITIES_TO_AVERAGE"]}
{"id": "C35", "title": "Meter group set operations", "statement": "mains() and submeters() partition a group; use_alternative_mains never loses a meter; union has each meter once; select(**kw) returns exactly the meters matching every key.", "quantifier": "every metergroup", "why_tests_cant": "all groups", "anchors": ["nilmtk/metergroup.py: mains, use_alternative_mains, submeters, union, select"]}
{"id": "C36", "title": "train_test_split splits the recorded samples in the requested proportion", "statement": "train_test_split(f) terminates and returns a time inside one of the mains' good sections such that the whole sample periods recorded before it are exactly the fraction f of all (rounded down to a second for a single section); a larger fraction never gives an earlier time; bad fractions are refused.", "quantifier": "every group and train fraction", "why_tests_cant": "all data", "anchors": ["nilmtk/metergroup.py: train_test_split"]}
{"id": "C37", "title": "Top-k selection and energy accounting", "statement": "select_top_k returns k meters none of which uses less energy than an unselected one; fraction_per_meter sums to 1; energy_per_meter remainder equals mains minus submeters.", "quantifier": "every list of meter energies", "why_tests_cant": "all energies", "anchors": ["nilmtk/metergroup.py: select_top_k, fraction_per_meter, _energy_per_meter_with_remainder"]}
{"id": "C38", "title": "Correlation is a correlation", "statement": "Electric.correlation computed in two chunked passes equals the Pearson correlation of the aligned series, lies in [-1,1], is symmetric and independent of chunking.", "quantifier": "every pair of series and chunking", "why_tests_cant": "all series", "anchors": ["nilmtk/electric.py: correlation"]}
{"id": "C39", "title": "Hart85 pairs each transition at most once and correctly", "statement": "For any stream of transitions every matched pair consists of an earlier positive transition and a later one that cancels it within tolerance, each transition is used in at most one pair, the buffer never exceeds its size, and pairing terminates.", "quantifier": "every stream of transitions, buffer sizes, tolerances", "why_tests_cant": "all streams", "anchors": ["nilmtk/disaggregate/hart_85.py: PairBuffer, pair"]}
{"id": "C40", "title": "Steady-state detection accounts for the whole power change", "statement": "find_steady_states reports transitions larger than the noise level in time order, with times taken from the input; the steady power it reports equals the mean of the samples of that state; on input with no event it should return empty frames (it raises IndexError).", "quantifier": "every power series and thresholds", "why_tests_cant": "all series", "anchors": ["nilmtk/feature_detectors/steady_states.py: find_steady_states"]}
{"id": "C41", "title": "FHMM combination and decoding are inverse", "statement": "State index k of the combined HMM decodes to the same tuple of appliance states that was used to build its mean, initial probability and transition rows; combined probabilities are the products and stay stochastic; parameter sorting is a permutation (if the means are distinct).", "quantifier": "every list of appliance HMMs of any sizes", "why_tests_cant": "exponentially many states", "anchors": ["nilmtk/disaggregate/fhmm_exact.py"]}
{"id": "C42", "title": "API data alignment", "statement": "API.dropna returns mains and appliance frames with exactly the timestamps present and non-missing in all of them, in order, values unchanged.", "quantifier": "every list of frames", "why_tests_cant": "all NaN patterns", "anchors": ["nilmtk/api.py: dropna"]}
{"id": "C43", "title": "Evaluation metrics are well-behaved", "statement": "fraction_energy_assigned_correctly and f1-scores are in [0,1], errors are non-negative and are 0 for perfect predictions; the rms/mne accumulators are independent of chunking.", "quantifier": "every prediction and ground truth", "why_tests_cant": "all series", "anchors": ["nilmtk/metrics.py", "nilmtk/losses.py"]}
{"id": "C44", "title": "Appliance.matches and ElecMeter.matches are conjunctive", "statement": "matches(key) is True iff every key:value pair matches on its own (i.e. the identifier, metadata or device/appliance type says so), regardless of order; the empty key matches everything, a non-dictionary is refused with TypeError, and an unknown key raises an exception whatever the other pairs say.", "quantifier": "every metadata and key dictionary", "why_tests_cant": "all dictionaries", "anchors": ["nilmtk/appliance.py: matches", "nilmtk/elecmeter.py: matches"]}
{"id": "C45", "title": "Hart85 power assignment follows the last known state", "statement": "assign_power_from_states terminates and gives each sample either 0 or the appliance's centroid, switching exactly as the last known on/off event says.", "quantifier": "every sequence of states", "why_tests_cant": "all sequences", "anchors": ["nilmtk/disaggregate/hart_85.py: assign_power_from_states"]}
{"id": "C46", "title": "Time frame equality, hashing and ordering are consistent", "statement": "Equal frames hash alike and contain the same instants; frames with the same instants are equal; < is a strict order on frames that have a start, so sorting sections is well defined.", "quantifier": "every pair/triple of frames", "why_tests_cant": "all combinations of bounds and flags", "anchors": ["nilmtk/timeframe.py: TimeFrame.__eq__, __lt__, __hash__"]}
{"id": "C47", "title": "Row counts and table time frames agree with the stored rows", "statement": "The row count the HDF store reports for a time frame is the number of stored rows in window ∩ frame; get_timeframe is the window cut to the period from the first to the last stored sample. (The frame is half-open, so the last sample itself lies outside it.)", "quantifier": "every table, window and frame", "why_tests_cant": "all tables and windows", "anchors": ["nilmtk/datastore/hdfdatastore.py: HDFDataStore._nrows, HDFDataStore.get_timeframe"]}
{"id": "C48", "title": "Predictions are attributed to the time of the mains reading they were computed from", "statement": "In the API's predict step, the value reported for an appliance at time t is the value the classifier computed from the mains row at time t, and it is compared with that appliance's reading at t; extra padding rows are dropped. (Holds when missing values are dropped first; otherwise predictions shift as soon as an appliance lacks a row.)", "quantifier": "every mains frame, every list of appliance frames, every row-wise classifier and padding", "why_tests_cant": "misalignment needs particular patterns of missing rows", "anchors": ["nilmtk/api.py: API.predict, dropna"]}
{"id": "C49", "title": "Chunk-wise training uses all usable data", "statement": "Chunk-wise training passes to partial_fit exactly the timestamps at which mains and every appliance have complete rows, each with the rows' own values. (Chunks are paired by number, so this needs chunks with the same number to cover the same period; otherwise usable rows are silently lost.)", "quantifier": "every chunking of mains and appliances", "why_tests_cant": "depends on the relative position of chunk boundaries across meters", "anchors": ["nilmtk/api.py: API.train_chunk_wise, dropna"]}
{"id": "C50", "title": "FHMM predictions are consistent with the decoded states", "statement": "FHMMExact.partial_fit learns one model per appliance that has samples; disaggregate_chunk gives every appliance, at every sample, the rounded mean power of its state in the predicted combined state; every prediction frame has the mains' time stamps and the same columns.", "quantifier": "every training set, learnt parameters and predicted state sequence", "why_tests_cant": "all models and state sequences", "anchors": ["nilmtk/disaggregate/fhmm_exact.py: FHMMExact.partial_fit, FHMMExact.disaggregate_chunk"]}
{"id": "C51", "title": "Resampled loading averages bins and fills only short gaps", "statement": "Loading with resample=True yields one row per sample_period, in order, from the first to the last sample, with no holes. Each row is the mean of the valid samples of its bin, or, if there are none, the value of the nearest earlier bin that has some, but no more than ceil(max_sample_period/sample_period) bins back; no value is older than max_sample_period plus one bin. Of rows with the same time stamp only the first counts.", "quantifier": "every increasing (or, for repeated rows, non-decreasing) series with any NaNs, every period, limit and time zone", "why_tests_cant": "all gap patterns and alignments of samples to bins", "anchors": ["nilmtk/utils.py: safe_resample", "nilmtk/elecmeter.py: ElecMeter.load"]}
{"id": "C52", "title": "power_series_all_data returns all data once and in order", "statement": "power_series_all_data returns None if there is no data; otherwise one series with strictly increasing time stamps that has every time stamp of every chunk. If the chunks have no time stamp in common it is their concatenation. (With resampling, a bin cut by a chunk boundary should have the mean of the whole bin.)", "quantifier": "every sequence of chunks, chunk boundaries and resampling period", "why_tests_cant": "depends on where chunk boundaries fall in the bins", "anchors": ["nilmtk/electric.py: Electric.power_series_all_data"]}
{"id": "C53", "title": "Loading a building places every meter once and attaches every appliance to its meters", "statement": "After a data set is opened, each meter declared for a building is found in the building exactly once: at the top level, in exactly one nested group, or among the disabled meters. Each appliance with several meters has one nested group with exactly its meters; each meter carries exactly the appliances declared on it, in order; appliances on meter 0 are on every mains meter; meters marked disabled are not active. Loading succeeds exactly when the metadata are consistent. (False in corner cases: success depends on the order of the appliances, a disabled meter inside a nested group stays active, and an appliance on the mains is lost if the mains are nested groups.)", "quantifier": "every dictionary of meters and every list of appliances, with any number of meters each", "why_tests_cant": "all shapes of metadata: shared meters, repeated meters, nested groups, disabled meters", "anchors": ["nilmtk/metergroup.py: MeterGroup.import_metadata, MeterGroup.__getitem__, MeterGroup.mains", "nilmtk/building.py: Building.import_metadata"]}
{"id": "C54", "title": "The time frame of a group spans the time frames of its meters", "statement": "`MeterGroup.get_timeframe()` returns a frame that starts at the earliest start and ends at the latest end of the frames of the meters in the group, however deeply groups are nested, so that every instant covered by a meter is inside it; meters without data in the window are ignored; if a meter's frame cannot be read the call raises.", "quantifier": "all groups (nested to any depth) and all time frames or exceptions of their meters", "why_tests_cant": "Needs every nesting of groups and every combination of empty and bounded frames.", "anchors": ["nilmtk/metergroup.py:MeterGroup.get_timeframe", "nilmtk/timeframe.py:TimeFrame.union"]}
{"id": "C55", "title": "Total energy and dropout rate of a group summarise its meters", "statement": "`MeterGroup.total_energy()` returns, for each AC type, the sum of what the meters of the group (at any depth) measured for that type; `MeterGroup.dropout_rate()` returns the mean of the meters' dropout rates and lies between 0 and 1.", "quantifier": "all groups, AC types recorded by each meter, energies and dropout rates", "why_tests_cant": "Unit tests use groups whose meters all record the same AC type; the result depends on every combination of recorded types and nestings.", "anchors": ["nilmtk/metergroup.py:MeterGroup.total_energy", "nilmtk/metergroup.py:MeterGroup.dropout_rate", "nilmtk/metergroup.py:MeterGroup._collect_stats_on_all_meters"]}
{"id": "C56", "title": "Proportions of energy compare like with like and lie between 0 and 1", "statement": "`proportion_of_energy(other)` is the mean, over the AC types both meters record, of own energy divided by the other's energy; it lies between 0 and 1 when the own energy never exceeds the other's; it is NaN only if the other has no energy. `proportion_of_energy_submetered()` is the sum of the proportions of the meters directly downstream of the mains and lies between 0 and 1 when together they use no more than the mains.", "quantifier": "all sets of recorded AC types, all energies and numbers of meters", "why_tests_cant": "Ratios, shared AC types and sums over any number of meters cannot be enumerated.", "anchors": ["nilmtk/electric.py:Electric.proportion_of_energy", "nilmtk/metergroup.py:MeterGroup.proportion_of_energy_submetered", "nilmtk/measurement.py:select_best_ac_type"]}
{"id": "C57", "title": "The table of all meters contains each meter's readings once", "statement": "`MeterGroup.dataframe_of_meters()` has one column per meter holding every reading of the meter exactly once at its time, no row without a reading, and no repeated time when the chunks of the meters cover the same periods.", "quantifier": "all groups, all sequences of chunks (any number, length and alignment, empty chunks included)", "why_tests_cant": "The table is built round by round from generators; any number of rounds, chunk boundaries and gaps must be covered.", "anchors": ["nilmtk/metergroup.py:MeterGroup.dataframe_of_meters"]}
{"id": "C58", "title": "Upstream and downstream meters follow the wiring in the metadata", "statement": "`ElecMeter.upstream_meter()` returns the meter of the same building and data set that `submeter_of` names (the mains if 0) or raises KeyError if there is none; `MeterGroup.upstream_meter()` returns the common upstream meter or raises; `meters_directly_downstream_of_mains()` returns exactly the meters whose upstream meter is the mains, in order, however deep the wiring and the nesting of groups.", "quantifier": "all histories of created meters, all wirings (any depth) and nestings of groups", "why_tests_cant": "Depends on a process-wide list of every meter ever created and on the whole wiring graph.", "anchors": ["nilmtk/elecmeter.py:ElecMeter.upstream_meter", "nilmtk/elecmeter.py:ElecMeter.__init__", "nilmtk/metergroup.py:MeterGroup.wiring_graph", "nilmtk/metergroup.py:MeterGroup.upstream_meter", "nilmtk/metergroup.py:MeterGroup.meters_directly_downstream_of_mains", "nilmtk/utils.py:tree_root"]}
{"id": "C59", "title": "Grouping by appliance metadata gives one group per value with the meters that have it", "statement": "`MeterGroup.groupby(key)` returns one named group for each value that a dominant appliance (or its type) gives for the key, and in it exactly the meters with an appliance having that value, in order; every meter is in the group of its dominant appliance's value. `dominant_appliance()` is the only, the first marked, or else the first appliance of a meter; for a group it is the common one, or an error.", "quantifier": "all groups, all metadata of appliances and appliance types, all keys", "why_tests_cant": "Values come from two sources (metadata, type), lists and sets; every combination must agree with selection.", "anchors": ["nilmtk/metergroup.py:MeterGroup.groupby", "nilmtk/metergroup.py:MeterGroup.values_for_appliance_metadata_key", "nilmtk/metergroup.py:MeterGroup.dominant_appliance", "nilmtk/elecmeter.py:ElecMeter.dominant_appliance"]}
{"id": "C60", "title": "Converting a data set keeps its readings and metadata", "statement": "`convert_datastore(input, output)` into an empty store leaves in the output, for every meter of the input, exactly its readings in order, and the metadata of the data set and of every building; no other meter appears.", "quantifier": "all data sets (numbers of buildings, utilities, meters, readings), all four combinations of HDF5 and CSV stores", "why_tests_cant": "Conversion walks the whole hierarchy and copies tables chunk by chunk; tests convert one small file in one direction and do not compare.", "anchors": ["nilmtk/datastore/datastore.py:convert_datastore", "nilmtk/datastore/hdfdatastore.py:HDFDataStore.save_metadata", "nilmtk/datastore/csvdatastore.py:CSVDataStore.append", "nilmtk/datastore/csvdatastore.py:CSVDataStore.elements_below_key", "nilmtk/datastore/csvdatastore.py:CSVDataStore.load_metadata"]}
{"id": "C61", "title": "What is written to a store is read back", "statement": "After `put(key, df)` a load of the key delivers exactly df; after `append(key, df)` it delivers the previous readings followed by df; the tables of other keys do not change.", "quantifier": "all store contents, keys and tables", "why_tests_cant": "Holds for every history of writes and every pair of keys.", "anchors": ["nilmtk/datastore/hdfdatastore.py:HDFDataStore.append", "nilmtk/datastore/hdfdatastore.py:HDFDataStore.put", "nilmtk/datastore/csvdatastore.py:CSVDataStore.append", "nilmtk/datastore/csvdatastore.py:CSVDataStore.put"]}
{"id": "C62", "title": "An experiment over several houses scores each house on its own data", "statement": "In an experiment that tests on several houses (or chunk by chunk), the errors reported for a house or chunk are exactly those that testing it alone would report, in order. For each supported metric, each classifier and each appliance, the error is the loss between the appliance's true readings and the classifier's predictions at exactly the timestamps at which mains and all appliances have a reading (of the chunk tested: a joint experiment uses the first chunk of each load). In joint training the k-th mains frame and the k-th frame of every appliance hold the readings of house k at common timestamps.", "quantifier": "all lists of houses, chunks and frames, all classifiers and loss functions, with and without artificial aggregate", "why_tests_cant": "The list of ground-truth meters is never reset between houses, so whether a later house is scored against an earlier one's readings depends on every combination of houses, appliances and gaps; tests use one or two buildings.", "anchors": ["nilmtk/api.py:API.train_jointly", "nilmtk/api.py:API.test_jointly", "nilmtk/api.py:API.test_chunk_wise", "nilmtk/api.py:API.call_predict", "nilmtk/api.py:API.predict", "nilmtk/api.py:API.compute_loss"]}
{"id": "C63", "title": "Switch times are exactly the jumps of the power series", "statement": "A meter's switch times are exactly the timestamps at which a reading differs from the reading just before it in the same loaded chunk by strictly more than the threshold. Nothing is reported that is not a jump of the whole series; times come in order, each once. A group's simultaneous switches are exactly the timestamps at which at least two submeters switch, each once, with the number of submeters that switch then.", "quantifier": "all series (with missing readings), all ways of cutting them into chunks, all thresholds, all lists of submeters", "why_tests_cant": "How a series is cut into chunks depends on its length and the store; whether a jump is seen depends on where the cuts fall and where readings are missing, for every series and threshold.", "anchors": ["nilmtk/electric.py:Electric.switch_times", "nilmtk/metergroup.py:MeterGroup.simultaneous_switches", "nilmtk/utils.py:flatten_2d_list"]}
{"id": "C64", "title": "When a meter's appliances count as on", "statement": "An appliance's on-power threshold is its own, else its nominal power when on, else its type's, else 10 W; a meter uses the smallest of its appliances' thresholds (10 W without appliances) and the longest minimum on/off durations their types ask for (0 if none). when_on says for every reading whether it is present and at least the threshold; get_activations of a meter reports, chunk by chunk, the on-periods for that threshold and those durations; vampire power is the smallest reading.", "quantifier": "all appliances and type tables (including unknown types), all chunks with missing readings, all given or defaulted parameters", "why_tests_cant": "The parameters come from four places in user-supplied metadata with fall-backs and errors; every combination for every list of appliances has to give the documented one.", "anchors": ["nilmtk/appliance.py:Appliance.on_power_threshold", "nilmtk/electric.py:Electric.on_power_threshold", "nilmtk/electric.py:Electric.when_on", "nilmtk/electric.py:Electric._aggregate_metadata_attribute", "nilmtk/electric.py:Electric.get_activations", "nilmtk/electric.py:Electric.vampire_power"]}
{"id": "C65", "title": "Activity scripts tell the start and end of every activation", "statement": "DataSet.get_activity_script writes, for every building and every submeter, under a key made of the building and the submeter's dominant appliance, a script in time order that tells exactly the first time (True) and the last time (False) of each activation of the meter; starts and ends alternate.", "quantifier": "all buildings, submeters, activations, chunks, any (unstable) sort that sorts", "why_tests_cant": "Whether starts and ends alternate depends on every pattern of pauses against the border, and whether a script survives depends on every other submeter of the building.", "anchors": ["nilmtk/dataset.py:DataSet.get_activity_script", "nilmtk/electric.py:get_activations"]}
{"id": "C66", "title": "Retrieving meters by key", "statement": "MeterGroup.__getitem__ returns exactly what the key asks for: the member with a given identifier, the nested group with exactly the given members (in whatever order) or instances, the mains of a building for instance 0, the only meter with a given number (also one in a nested group), the only member feeding a described appliance, or a group of two of these; it raises KeyError if there is none, an exception if a number or an appliance is ambiguous, and TypeError for keys of no documented form. from_list assembles a group with exactly the meters asked for and gives back a group's members for its own identifiers; from_other_metergroup makes a group with the same identifiers in another data set.", "quantifier": "all groups (nested to any depth), identifiers, keys, appliances and their matching, orders in which sets are listed", "why_tests_cant": "Which meter is returned depends on every other member of the group, the nesting and the kind of key.", "anchors": ["nilmtk/metergroup.py:MeterGroup.__getitem__", "nilmtk/metergroup.py:MeterGroup.from_list", "nilmtk/metergroup.py:MeterGroup.from_other_metergroup", "nilmtk/metergroup.py:MeterGroup.identifier", "nilmtk/electric.py:Electric.matches_appliances"]}
{"id": "C67", "title": "The power states of an appliance", "statement": "cluster(X) returns the power states of an appliance: sorted, without repetitions, with the off state 0, every other state at least 10 W and within the range of the readings above 10 W, at most as many as asked for, [0] for an appliance with too few such readings, for every series of readings; the number of states is the one with the best silhouette score. hart85_means_shift_cluster names each centre after the kind of power it was computed from.", "quantifier": "all series of readings (with missing ones), limits and exact numbers of clusters, results and exceptions of KMeans, silhouette scores, random subsamples, columns", "why_tests_cant": "The states depend on every reading, on the random subsample and on which clusterings fail.", "anchors": ["nilmtk/feature_detectors/cluster.py:cluster", "nilmtk/feature_detectors/cluster.py:_transform_data", "nilmtk/feature_detectors/cluster.py:_apply_clustering", "nilmtk/feature_detectors/cluster.py:hart85_means_shift_cluster"]}
{"id": "C68", "title": "Reading one data set through several generators while its window is changed", "statement": "DataSet.set_window takes effect exactly when it returns: the window in force is that of the last call that returned (all of time if none did); a call that raises (no store, no time zone, reversed ends, times with a time zone, times that do not exist) changes nothing. Generators obtained from the store can be advanced in any order: what each delivers does not depend on the others, and if the window is not changed between its first and last advance it delivers exactly what one uninterrupted load delivers; every row delivered lies in a window that was in force while the generator was advanced and in a section asked for. A load should use the window in force when it was requested.", "quantifier": "all sequences of set_window calls, loads and advances of generators, all tables, sections, chunk sizes, look-ahead lengths and time zones", "why_tests_cant": "The outcome depends on the interleaving of window changes and of the advances of any number of generators.", "anchors": ["nilmtk/dataset.py:DataSet.set_window", "nilmtk/datastore/datastore.py:DataStore.window", "nilmtk/datastore/hdfdatastore.py:HDFDataStore.load", "nilmtk/timeframe.py:TimeFrame.__init__"]}
{"id": "C69", "title": "Comparing predictions with the ground truth submeter by submeter", "statement": "error_in_assigned_energy, mean_normalized_error_power, rms_error_power and f1_score compare every submeter of the predictions with its counterpart in the ground truth (same instance and building, or a group of the same meters, in the data set of the ground truth), whatever the order of the meters in both groups; KeyError is raised exactly when some submeter has no counterpart; the resulting Series has one entry for every submeter, under its instance, with the score of that pair.", "quantifier": "all groups of predictions and ground truth with nested groups, all identifiers, all scores and exceptions of the individual comparisons", "why_tests_cant": "The pairing depends on all identifiers of both groups, and the Series on all instances.", "anchors": ["nilmtk/metergroup.py:iterate_through_submeters_of_two_metergroups", "nilmtk/metergroup.py:replace_dataset", "nilmtk/metergroup.py:MeterGroup.submeters", "nilmtk/metrics.py:error_in_assigned_energy", "nilmtk/metrics.py:f1_score"]}
{"id": "C70", "title": "Disaggregating into a store writes each appliance’s best estimates under its own key", "statement": "After any history of training, disaggregating, exporting and importing, CombinatorialOptimisation.disaggregate_chunk splits every mains reading among the states learnt so far in the best possible way, one column per trained meter. disaggregate appends to the key of each trained meter exactly its estimates, and to that of meter 1 the mains readings, with the same time stamps, and leaves every other key alone; if reading the mains fails midway the exception is passed on, what was written stays and no metadata is written; otherwise the metadata describe the mains, exactly the trained meters as submeters and their appliances, over the time from the first to the last chunk. Not met: chunks of fewer than 100 readings are dropped silently; a trained meter with instance 1, or two with the same instance, share a key; a second run appends the results again; the data set time frame is that of the last building only; a failed training cannot be repeated.", "quantifier": "every history of calls, every stream of mains chunks and failure point, every store content, every trained model", "why_tests_cant": "tests disaggregate one small file once; the claim ranges over histories (cached state combinations), failure points and combinations of instances", "anchors": ["nilmtk/legacy/disaggregate/combinatorial_optimisation.py: CombinatorialOptimisation.train, train_on_chunk, disaggregate, disaggregate_chunk, import_model, export_model", "nilmtk/legacy/disaggregate/disaggregator.py: _pre_disaggregation_checks, _save_metadata_for_disaggregation", "nilmtk/datastore/hdfdatastore.py: append, save_metadata"]}
{"id": "C71", "title": "Opening a data set gives every building under its instance", "statement": "DataSet(filename).buildings maps each instance to the building whose metadata have it, labelled with the data set its metadata name or else the one opened, whatever the order in which the store lists its elements; opening raises exactly if some element has no valid metadata, with the exception of the first such element by name; buildings iterate in dictionary order of their names, which for up to nine buildings is the order of their numbers. Not met: with ten or more buildings iteration is not in numeric order (1, 10, 2); two elements with the same instance silently replace one another; a data set with buildings cannot be saved (AttributeError).", "quantifier": "all stores: any set of element names, any metadata, any exceptions of the store and of the import of meters", "why_tests_cant": "the result depends on all names and instances together; the test data have one to six buildings, all numbered", "anchors": ["nilmtk/dataset.py: DataSet.import_metadata, _init_buildings, save", "nilmtk/building.py: Building.import_metadata, identifier, save"]}
{"id": "C72", "title": "Hart85 predicts each appliance from the switches of its best-matching cluster", "statement": "After Hart85.partial_fit each appliance is matched with the cluster whose on/off prediction on the training mains has the least error, and disaggregate_chunk gives, for one chunk with power steps, the times of the chunk and one column per appliance: 0 or the truncated centroid, on exactly between an upward and the next downward step that is nearest to its centroid. Not met: training on several houses or chunk by chunk uses only the first house and the last chunk; of several chunks only the last is returned, predicted from the steps of the first; a chunk without steps raises; an appliance switched on at the last reading counts as on from the beginning; several appliances can share a cluster so that the predictions exceed the mains.", "quantifier": "all training and test mains (any number of readings, strictly increasing times), appliances, thresholds, earlier histories and clusterings", "why_tests_cant": "the outcome depends on the whole sequence of steps and on the matching of all clusters; tests only run the algorithm on sample data", "anchors": ["nilmtk/disaggregate/hart_85.py: Hart85.partial_fit, disaggregate_chunk, min_rmse_column, assign_power_from_states", "nilmtk/feature_detectors/steady_states.py: find_steady_states", "nilmtk/feature_detectors/cluster.py: hart85_means_shift_cluster"]}
{"id": "C73", "title": "Converting raw REDD and UK-DALE data stores every channel under its house and number", "statement": "convert_redd stores the rows of house_<h>/channel_<c>.dat, in time order, under building h meter c, as apparent power for channels 1 and 2 and as active power for the others, and nothing else; convert_ukdale stores each channel under its first AC type, keeping the first row of each time, and stores the one-second mains data for the meters that measure active and apparent power. A conversion that fails leaves exactly the channels before the failing one. Not met: houses with two digits and channels with three are silently left out; a file named channel_1-dat or channel_01.dat stops the conversion; one-second meters of one house share the same data; a meter whose metadata list apparent before active keeps its coarse data; UK-DALE rows are not sorted; sorting and then dropping repeated times need not keep the first row.", "quantifier": "all directory trees, file contents, unreadable files, metadata (AC types of the meters), sorting functions", "why_tests_cant": "tests convert only a few fixed small trees; the claim concerns every name, number and order of files and rows", "anchors": ["nilmtk/dataset_converters/redd/convert_redd.py: convert_redd, _convert, _find_all_houses, _find_all_chans, _matching_ints, _get_csv_filename, _load_csv", "nilmtk/dataset_converters/ukdale/convert_ukdale.py: convert_ukdale, _convert_one_sec_data", "nilmtk/datastore/key.py: Key._check"]}
{"id": "C74", "title": "Average energy per period is energy divided by covered time", "statement": "uptime() is the total time between consecutive samples that are at most max_sample_period apart, whatever the chunk size; average_energy_per_period() is the energy divided by that time (or, without use_uptime, by the time from the first to the last sample) per period, NaN if no time is covered; it lies between the smallest and the largest power, a group of meters has the sum of its meters' averages, and the period does not depend on the day of the call. Not met: a load with gaps is overstated, since the energy counts max_sample_period of every gap and the uptime none; a group uses the uptime of its first meter only, so its average depends on the order of the meters; a month is the length of the next calendar month and a business day is three days on a Friday.", "quantifier": "all tables with increasing times and at least two rows without missing values, all chunk sizes, sample periods, period lengths, groups of meters and dates", "why_tests_cant": "tests compute the average of one data set; the claim concerns all gaps, chunk sizes and groups", "anchors": ["nilmtk/electric.py: Electric.uptime, Electric.average_energy_per_period", "nilmtk/elecmeter.py: ElecMeter.good_sections, ElecMeter.total_energy", "nilmtk/metergroup.py: MeterGroup.good_sections, MeterGroup.total_energy", "nilmtk/utils.py: offset_alias_to_seconds"]}
{"id": "C75", "title": "A load delivers its own data through its own preprocessing, whatever other loads do", "statement": "A generator made by load() or power_series() delivers the chunks of its own meter passed through the nodes of its preprocessing list in order, resampled once with its own period and with the limit of its own options or else of its own meter, then stops, however its next() calls interleave with those of other generators. Not met when the caller passes the same list, nodes or options object to several calls: a second load() reconnects the nodes, so that the first generator delivers the data of the second; every resampling load appends its resampling to the list, also if it raises, so that later loads are resampled once more; the limit of the first meter stays in the options; a node that occurs twice in a list ends in RecursionError.", "quantifier": "all programs of load, power_series and next calls on any number of meters, lists, nodes and options, all chunks and all functions of the nodes", "why_tests_cant": "the claim concerns every interleaving of lazy generators over shared mutable objects", "anchors": ["nilmtk/elecmeter.py: ElecMeter.load, ElecMeter._get_source_node", "nilmtk/electric.py: Electric._prep_kwargs_for_sample_period_and_resample, Electric.load_series, Electric.power_series", "nilmtk/node.py: Node", "nilmtk/preprocessing/apply.py: Apply", "nilmtk/preprocessing/clip.py: Clip"]}
{"id": "C76", "title": "Converting Dataport CSV files gives each building its meters with their readings", "statement": "convert_dataport numbers the buildings of metadata.csv that have data 1, 2, ... in order and gives each one meter per appliance column with readings (plus the site meter, with grid power plus solar generation, in watts), whose table has the readings of that column in the order of the file names and of time, and whose metadata names that appliance once; the order in which the files are given and the rows read at a time do not matter. Not met for buildings in several files: the columns are numbered per file, so that one meter can hold the readings of two appliances, and every appliance is listed once per file. Not met if columns are missing from some chunks: the chunk size then changes the meter numbers and even the site power. A building listed twice in metadata.csv gets its readings twice.", "quantifier": "all lists of files, all headers, rows and chunkings, all lists of buildings", "why_tests_cant": "the claim ranges over all files and chunkings; the converter needs gigabytes of licensed data and has no test", "anchors": ["nilmtk/dataset_converters/dataport/csv_converter.py: convert_dataport, extract_building_data, preprocess_chunk, write_meter_data"]}
{"id": "C77", "title": "An experiment trains each classifier on all training data and tests it as trained", "statement": "API.experiment trains each classifier that is not pretrained on the data of all training houses (in one call, or chunk by chunk for its number of epochs) and no other object; the results are, for every test house and chunk in order, the predictions of the classifiers as trained; each method behaves as in an experiment on its own. Chunk by chunk, the number of the epoch is passed as the third argument of partial_fit. So the claim is not met for classifiers that take only the data, such as Mean (TypeError, and the other methods get no results either), nor for Hart85 (it takes the epoch for its buffer size and always raises), nor for CO (it learns from the first chunk only); and the number of epochs of the objects is set to 1 for good.", "quantifier": "all configurations, all training and test houses, chunks and exceptions, all classifiers (partial_fit and disaggregate_chunk are arbitrary functions of the state), all mean shift and cluster functions", "why_tests_cant": "the claim ranges over all classifiers, houses and chunkings; the test suite has no chunk-wise experiment", "anchors": ["nilmtk/api.py: API.experiment, train_chunk_wise, train_jointly, test_chunk_wise, test_jointly", "nilmtk/disaggregate/hart_85.py: Hart85.partial_fit", "nilmtk/disaggregate/mean.py: Mean.partial_fit", "nilmtk/disaggregate/combinatorial_optimisation.py: CO.partial_fit"]}
{"id": "C78", "title": "A saved Mean model is loaded as it was, in any later process, or not at all", "statement": "Whatever the names of the appliances and the readings, load_model after save_model gives the same model; training spread over processes that save and load gives the model, file and predictions of training in one process. If saving is interrupted at any point, loading gives the old model, the new one, or raises. Not met: that one of the two models survives: between opening the file and its last character neither can be loaded.", "quantifier": "all models, names (any Unicode text) and sums, all sequences of calls and their division into processes, all crash points of a save, all sizes of a full disk", "why_tests_cant": "the claim ranges over all names, histories and crash points; tests do not interrupt a save", "anchors": ["nilmtk/disaggregate/mean.py: Mean.save_model, Mean.load_model, Mean.partial_fit, Mean.__init__, Mean.disaggregate_chunk"]}
{"id": "C79", "title": "Importing HES data gives each meter the readings of its appliance in its house", "statement": "After convert_hes the table of a building and meter holds the readings of one appliance of one house, every appliance with readings has such a table, and the metadata describe these meters. Not met: a meter holds all readings of the house, of whatever appliance, from every chunk in which the appliance occurs in any house; houses get meters of appliances of other houses; metadata end at the first code that is not an appliance; with pandas 2 nothing is imported.", "quantifier": "all files, all divisions into chunks, all rows, all limits on the number of chunks, all tables of appliance names, all sort orders for equal times, all points where reading fails", "why_tests_cant": "which readings go to which meter depends on how rows of houses and appliances are mixed in chunks; tests have no HES data", "anchors": ["nilmtk/dataset_converters/hes/convert_hes.py: convert_hes, _process_meter_in_chunk, load_list_of_house_ids"]}
{"id": "C80", "title": "What a meter says of its device comes from its own data set", "statement": "sample_period, the available columns, the number of readings load fills in, and good_sections of a meter follow the description of its device in the data set it belongs to, whatever other data sets a program opens before or after. Not met: descriptions are shared by the whole process under the name of the device model, so they are those of the data set opened last that uses the name, even when opening it failed.", "quantifier": "all sequences of data sets opened in one process, including openings that fail at any building, all device descriptions, all meters and readings", "why_tests_cant": "the answer depends on everything the process has opened before and since; unit tests open one data set", "anchors": ["nilmtk/elecmeter.py: ElecMeter.meter_devices, ElecMeter.load_meter_devices, ElecMeter.device, ElecMeter.sample_period, ElecMeter.available_columns, ElecMeter.load, ElecMeter.good_sections", "nilmtk/metergroup.py: MeterGroup.import_metadata", "nilmtk/dataset.py: DataSet.import_metadata", "nilmtk/building.py: Building.import_metadata"]}
{"id": "C81", "title": "A data set gives the same answers in either store format", "statement": "A meter whose readings are kept in an HDF file and one whose identical readings are kept in CSV files give the same power series, the same covered period and the same energy for the same window, sections and any chunk sizes. Not met: energy from CSV files read in several blocks lacks the intervals between blocks, a section that includes its end loses its last reading, and a section with one reading raises ValueError instead of giving nothing.", "quantifier": "all tables of increasing timestamps, windows, lists of sections in time order, chunk sizes and look-aheads of both stores", "why_tests_cant": "agreement has to hold for every placement of sections and block boundaries; the tests of the two stores use separate small files and never compare them", "anchors": ["nilmtk/datastore/csvdatastore.py: CSVDataStore.load, CSVDataStore.get_timeframe", "nilmtk/datastore/hdfdatastore.py: HDFDataStore.load, HDFDataStore.get_timeframe", "nilmtk/electric.py: Electric.power_series_all_data", "nilmtk/elecmeter.py: ElecMeter.total_energy", "nilmtk/stats/totalenergy.py: TotalEnergy.process"]}
{"id": "C82", "title": "Statistics of a meter without naming a period", "statement": "total_energy(), good_sections() and dropout_rate(ignore_gaps=False) called without sections describe the readings within the window of the data set, whatever the chunk size: the energy of the readings in the window, of which the energies of two adjoining windows make up the whole when a reading was taken where they meet; the runs of samples without a gap; and the proportion of samples missing. Not met: a window that ends exactly at a sample that begins a run makes good_sections raise ValueError, and the dropout rate depends on the chunk size (chunks of fewer than five rows count as complete).", "quantifier": "all tables of increasing timestamps, windows, chunk sizes, sample periods, columns and AC types", "why_tests_cant": "a whole-meter statistic is assembled from chunks of arbitrary size in a window placed arbitrarily over the data; the tests use the default chunk size and windows that start and end between samples", "anchors": ["nilmtk/elecmeter.py: ElecMeter.total_energy, ElecMeter.dropout_rate, ElecMeter.good_sections, ElecMeter._get_stat_from_cache_or_compute", "nilmtk/datastore/hdfdatastore.py: HDFDataStore.get_timeframe, HDFDataStore.load", "nilmtk/stats/dropoutrate.py: DropoutRate.process", "nilmtk/stats/dropoutrateresults.py: DropoutRateResults.combined", "nilmtk/stats/goodsections.py: GoodSections.process", "nilmtk/stats/totalenergy.py: TotalEnergy.process"]}
{"id": "C83", "title": "Statistics of the good sections of a meter leave its gaps out", "statement": "For a meter whose readings within the window end there, without missing values or loaded in one chunk, dropout_rate() (which ignores gaps by default) considers only the runs of readings at most max_sample_period apart: whatever the gaps and whatever the chunk size it lies between 0 and 1, and is 0 for a meter that reports regularly within its runs; loaded in one chunk per section it is the mean of the rates of the runs weighted with their numbers of readings. total_energy(sections=meter.good_sections()) is the sum of the energies of these runs and at most total_energy().", "quantifier": "All tables, windows, sampling limits and gaps, any number and length of runs, and chunk sizes.", "why_tests_cant": "Tests have a table with one gap and one chunk size; the statement is about any number of gaps anywhere relative to chunk boundaries.", "anchors": ["nilmtk/elecmeter.py: ElecMeter.dropout_rate, good_sections, total_energy, _get_stat_from_cache_or_compute", "nilmtk/stats/dropoutrate.py: DropoutRate", "nilmtk/stats/goodsections.py: GoodSections", "nilmtk/datastore/hdfdatastore.py: HDFDataStore.load"]}
{"id": "C84", "title": "The proportion of energy between the meters of a store is a proportion", "statement": "For meters of a store that report at the same times, submeter.proportion_of_energy(mains) is the ratio of the energies of the two meters over the good sections of the mains, NaN if the mains used nothing there; if the submeter never reads more than the mains it lies between 0 and 1, and if all submeters together never do, proportion_of_energy_submetered() lies between 0 and 1, whatever the chunk size, the gaps of the mains and the sampling limits of the submeters. proportion_of_upstream() gives the same number.", "quantifier": "All tables of power readings with common timestamps, windows, sampling limits, numbers of submeters, gaps and chunk sizes.", "why_tests_cant": "Tests check one pair of meters of one data set; the statement is about every load curve, and about every division of it into sections and chunks.", "anchors": ["nilmtk/electric.py: Electric.proportion_of_energy, proportion_of_upstream", "nilmtk/metergroup.py: MeterGroup.proportion_of_energy_submetered", "nilmtk/elecmeter.py: ElecMeter.total_energy, good_sections", "nilmtk/stats/totalenergy.py: get_total_energy"]}
{"id": "C85", "title": "The tables a group makes of its meters say what the meters say", "statement": "MeterGroup.pairwise(method) is a square table labelled with the identifiers of the meters whose two cells for a pair hold the method's value for that pair; pairwise_correlation() holds the correlation coefficients, whatever the order of the meters. call_method_on_all_meters(method) lists each meter with its value, proportion_of_upstream_total_per_meter() each meter with its proportion, largest first. sample_period() is the longest of all meters in the group at any depth, available_ac_types() and available_physical_quantities() list exactly what some meter measures, once each, and sort_meters() orders the meters by instance without losing any. An exception of a meter comes through.", "quantifier": "All groups (nested to any depth), methods, identifiers, chunks of readings and results of the meters.", "why_tests_cant": "Tests call these on one group of one data set; the statement is about all groups, orders of meters, nestings and failures of single meters.", "anchors": ["nilmtk/metergroup.py: MeterGroup.pairwise, pairwise_correlation, call_method_on_all_meters, proportion_of_upstream_total_per_meter, sample_period, available_ac_types, available_physical_quantities, sort_meters", "nilmtk/electric.py: Electric.correlation, proportion_of_upstream"]}
{"id": "C86", "title": "The energy of a meter is the energy of the lines of its raw file", "statement": "After convert_redd or convert_ukdale, total_energy() of the meter of a channel, over any window and with any chunk size, is the integral over time of the power in the lines of the channel's file in that window, each line in force until the next (at most the maximum sample period). The order of the lines in the file does not matter, a repeated time counts once (UK-DALE), a constant load of p watts gives p times the duration, and the one-second mains of UK-DALE give active and apparent energy from their columns.", "quantifier": "All directories of raw files, houses and channels the converters recognise, lines in any order, windows, chunk sizes and maximum sample periods.", "why_tests_cant": "Tests convert a small sample directory and compare a single number; the statement is about all files, orders of lines, windows and chunk sizes and goes through the converter, the store and the statistics together.", "anchors": ["nilmtk/dataset_converters/redd/convert_redd.py: convert_redd", "nilmtk/dataset_converters/ukdale/convert_ukdale.py: convert_ukdale", "nilmtk/elecmeter.py: ElecMeter.total_energy", "nilmtk/datastore/hdfdatastore.py: HDFDataStore.load"]}
{"id": "C87", "title": "A table with a column for each meter becomes one meter per column", "statement": "convert_refit puts houses 1 to 13 and 15 to 21 into buildings 1 to 20; the power columns of a file become the meters 1 to 10 of its building, the cells of each line under the time of the line, in the order of time, and all meters of a building in the same order of lines. convert_dred puts the 13 columns after the time into meters 1 to 13 of building 1. Which meter a column becomes is decided by its name. The conversion ends normally exactly when all files are there and complete; otherwise what precedes the failure is in the store and nothing else.", "quantifier": "All directories and files, orders of lines and columns, cell values, and ways of sorting lines with equal times.", "why_tests_cant": "Tests do not run these converters (the data are gigabytes); the statement is about all files and about which houses are in the store after a failure.", "anchors": ["nilmtk/dataset_converters/refit/convert_refit.py: convert_refit, _convert, _load_csv", "nilmtk/dataset_converters/dred/convert_dred.py: convert_dred, _convert, _load_csv"]}
{"id": "C88", "title": "Rounding does not spoil the total energy", "statement": "total_energy is computed in floating point. Its result differs from the exact energy by a relative error of at most about twice the number of additions in the longest chain times the precision, in whatever order numpy and pandas add the terms, when no reading is negative; it is never negative then, it is exactly 0 without power, and larger readings never give less. For whole watts at whole seconds the sum is exact and does not depend on the order at all. With readings of both signs the energy is right up to a small part of the energy of their amounts.", "quantifier": "All roundings with relative error u (double precision is one), all chunks of readings with missing ones, all maximum sample periods, all orders and groupings of the additions.", "why_tests_cant": "A test sees the rounding of a few sums in the order one version of numpy happens to use.", "anchors": ["nilmtk/stats/totalenergy.py: _energy_for_power_series, get_total_energy", "nilmtk/utils.py: timedelta64_to_secs", "nilmtk/results.py: Results.combined"]}
{"id": "C89", "title": "A store holds what the history of operations left in it", "statement": "After any sequence of put, append, remove and save_metadata, a key of an HDF5 file holds the rows of the last put to it and everything appended since, in order; nothing that was there before it, or something above it, was removed or overwritten; its metadata are those saved last. remove(key) takes away the key and everything below it and nothing else, and fails, changing nothing, if there is no such key. Operations on unrelated keys can be exchanged. The same holds for the files of a CSV store. (False: removing a building from a CSV store leaves its metadata, so the data set still declares its meters; removing the last table of a building from an HDF5 file leaves a building without metadata.)", "quantifier": "All histories of operations, all keys in all spellings, all stores.", "why_tests_cant": "A test runs one short sequence of operations on one key.", "anchors": ["nilmtk/datastore/hdfdatastore.py: remove, put, append, save_metadata, elements_below_key", "nilmtk/datastore/csvdatastore.py: remove, put, append, __getitem__"]}
{"id": "C90", "title": "The ECO converter stores every reading under the right meter and second", "statement": "After convert_eco has finished, meters 1 to 3 of a building hold exactly the readings of the three phases of its smart meter files and meter n + 3 exactly those of plug n, each at the second of the day its line stands for, without the ones marked as missing (-1); if each meter has one directory with the days in order, the times of a table increase strictly. A data set in one of the documented layouts is converted; if no smart meter file or no plug file is found, the conversion is reported as failed. (False: of a building with fewer than three plug folders nothing is stored; a plug folder with the name the documentation gives is skipped.)", "quantifier": "All directory trees, file names, contents of files, buildings and meters.", "why_tests_cant": "The ECO data set is far too large for a test; the layouts and names a user may have are unbounded.", "anchors": ["nilmtk/dataset_converters/eco/convert_eco.py: convert_eco"]}
{"id": "C91", "title": "Factorial HMM disaggregation into a store writes the estimates of the states found, and nothing else", "statement": "After the (legacy) FHMM disaggregator has run over some mains, the output store holds for each trained meter, at the times of the readings that are not missing, the rounded mean power of the state found for it, appended to what was there; the mains table gains the readings themselves, other tables are unchanged, chunks of fewer than 100 rows are left out, and the metadata describe exactly the mains and the trained meters. Over several buildings with given sections each building gets the estimates for its own mains under its own meters. An untrained object is refused with nothing written. (False: without given sections every building is read over its own good sections - all are read over those of the first; a building without any of the appliances, or a chunk without any reading, is passed over - the call fails; a model trained across buildings can disaggregate a single one.)", "quantifier": "All trained models, sequences of chunks (including ones that fail), stores, numbers of buildings and meters, and state sequences the HMM library may return.", "why_tests_cant": "It must hold for every sequence of chunks, previous content of the store and number of buildings; tests run one small file.", "anchors": ["nilmtk/legacy/disaggregate/fhmm_exact.py: FHMM.disaggregate_chunk, FHMM.disaggregate, FHMM.disaggregate_across_buildings", "nilmtk/legacy/disaggregate/disaggregator.py: _pre_disaggregation_checks, _save_metadata_for_disaggregation"]}
{"id": "C92", "title": "Energy over named sections, and the error in assigned energy, are sums over the readings of those sections", "statement": "total_energy(sections=...) over sections that follow each other is the sum of the energies of the readings within each section and the window of the store, whatever the chunk size. error_in_assigned_energy has one entry for each predicted submeter, under its instance: the absolute difference between the energies of the prediction and of its counterpart in the ground truth over the good sections of the prediction, even if the two report at different times; it is 0 for a perfect prediction and at most the energy of the difference of the readings if both report at the same times. (False: there is an error whenever both have readings - all entries are NaN if the prediction is of another AC type than the ground truth.)", "quantifier": "All tables of power readings, sections, windows, chunk sizes, maximum sample periods, AC types, and groups of submeters with different instances.", "why_tests_cant": "It must hold for every placement of sections, windows and chunk borders relative to the readings and every pair of time lines; tests use one data set.", "anchors": ["nilmtk/metrics.py: error_in_assigned_energy", "nilmtk/elecmeter.py: ElecMeter.total_energy, ElecMeter.good_sections", "nilmtk/datastore/hdfdatastore.py: HDFDataStore.load", "nilmtk/metergroup.py: iterate_through_submeters_of_two_metergroups"]}
{"id": "C93", "title": "Importing the IDEAL and HIPE data sets stores the readings of each recognised file under its meter", "statement": "convert_ideal stores, for each file of electric power whose home has such files in both folders, one table under the home and the (first) number of the sensor: one row per reading, at its second, in the order of time, apparent power for mains and active for appliances; homes with files in one folder only are left out, whatever the order in which the folders are listed. convert_hipe stores as meter m of building 1 the first file of machine m, in watts, absolute values, in the order of time; without a file of one of the machines nothing is imported. (False: IDEAL can be laid out as documented - the documented folder name gives IndexError; one file with an unexpected name is harmless - nothing is imported; times are distinct; every file is stored - a combined sensor and a sensor of its first number overwrite each other. HIPE: the sum of the readings is kept when power is fed in; all files of a machine are imported.)", "quantifier": "All directory trees, listing orders, file names, readings, times, sorting algorithms.", "why_tests_cant": "It must hold for every directory tree, order of listing and naming of files; the data sets are not part of the tests.", "anchors": ["nilmtk/dataset_converters/ideal/convert_ideal.py: convert_ideal, _convert, mains_plus_appliance_home_id, _find_all_houses_sensor, _load_csv", "nilmtk/dataset_converters/hipe/convert_hipe.py: convert_hipe, _convert, _find_all_channels, _load_csv"]}
{"id": "C94", "title": "Labels identify appliances and meters as far as documented", "statement": "The full label of an appliance determines its type and instance (and the original name of an unknown one), whatever characters the type contains; the pretty label does for types that do not end with a number. The full label of a meter without a name that is not a site meter determines the identifiers of its appliances, in order. The pretty label is the capitalised type of the dominant or first appliance. get_labels gives the labels of the meters asked for, in their order; the label of a nameless group lists the labels of its members, each once. Labels fail only for appliances without instance (pretty) or type. (False: pretty labels of types such as \"tv 2\" are unambiguous; pretty labels of different meters differ; they list all appliance types, as documented; they are never empty; the label of a group is the same in every session.)", "quantifier": "All appliance types (strings), instances, marks, lists of appliances, nested groups of meters, orders of sets.", "why_tests_cant": "Distinctness must hold for every pair of appliances and every string; tests compare a few labels.", "anchors": ["nilmtk/appliance.py: Appliance.label", "nilmtk/elecmeter.py: ElecMeter.label, ElecMeter._pretty_label, ElecMeter.dominant_appliance", "nilmtk/metergroup.py: MeterGroup.label, MeterGroup.get_labels", "nilmtk/utils.py: capitalise_first_letter"]}
{"id": "C95", "title": "The summary of a building describes its meters", "statement": "describe() of a group of meters counts its meters and its mains meters (disabled ones included), gives the time from the first to the last reading of any meter, the share of that time that is covered by the readings of the mains (between 0 and 1, and 1 exactly if the mains reported all the time), the longest sample period of the mains meters and of the others, the energy of the mains per day of uptime, and the least, mean and greatest dropout rate. Without mains meters, without other meters, and for several buildings it raises an exception.", "quantifier": "all groups of meters with groups inside to any depth, all tables of readings in time order, chunk sizes, sample periods, dropout rates and disabled meters", "why_tests_cant": "The entries combine statistics of all the meters of a building over arbitrary series; a test sees a few data sets.", "anchors": ["nilmtk/metergroup.py:MeterGroup.describe", "nilmtk/metergroup.py:MeterGroup.all_meters", "nilmtk/metergroup.py:MeterGroup.mains", "nilmtk/metergroup.py:MeterGroup.get_timeframe", "nilmtk/electric.py:Electric.uptime", "nilmtk/electric.py:Electric.average_energy_per_period"]}
{"id": "C96", "title": "Good sections taken from the cache are those that would be computed", "statement": "Every request for the good sections of a meter, in any history of such requests, gives the same answer with the cache of statistics as without it. In particular the good sections of the whole meter, asked for any number of times, are each time the maximal runs of readings without a long gap.", "quantifier": "all series of readings, windows, chunk sizes, longest sample distances, and all histories of requests for sections of the meter", "why_tests_cant": "What a request returns depends on everything asked before and on how the store cut it into chunks; a test asks for a section twice.", "anchors": ["nilmtk/elecmeter.py:ElecMeter.good_sections", "nilmtk/elecmeter.py:ElecMeter._get_stat_from_cache_or_compute", "nilmtk/stats/goodsectionsresults.py:GoodSectionsResults.import_from_cache", "nilmtk/stats/goodsectionsresults.py:GoodSectionsResults.export_to_cache", "nilmtk/stats/goodsectionsresults.py:GoodSectionsResults.combined"]}
{"id": "C97", "title": "Statistics of a meter follow the readings stored", "statement": "Whatever is appended to a meter, stored in its place, cleared from the cache and asked in between, total energy and good sections are those of the readings stored at the time of the question.", "quantifier": "all series of readings, columns, chunk sizes, longest sample distances, and all histories of appending, replacing, clearing the cache and asking", "why_tests_cant": "Whether a stale answer is given depends on the whole history of writes and questions; a test computes a statistic of one fixed table.", "anchors": ["nilmtk/elecmeter.py:ElecMeter.total_energy", "nilmtk/elecmeter.py:ElecMeter.good_sections", "nilmtk/elecmeter.py:ElecMeter._get_stat_from_cache_or_compute", "nilmtk/elecmeter.py:ElecMeter.clear_cache", "nilmtk/datastore/hdfdatastore.py:HDFDataStore.append", "nilmtk/datastore/hdfdatastore.py:HDFDataStore.put"]}
{"id": "C98", "title": "Importing the SMART data set keeps every reading at its time", "statement": "Importing the SMART data set stores for homes A, B and C, as buildings 1 to 3, one table for the mains and one for every other column of the half-hourly files, holding all its readings of all years in watts, each at the time written in its row, in time order.", "quantifier": "all directories, text and CSV files: any years, files per year, columns, numbers of rows, and missing columns", "why_tests_cant": "What is stored depends on how the tables of a year are joined, on which columns each year has and on the order in which directories are listed; a test imports one example home.", "anchors": ["nilmtk/dataset_converters/smart/convert_smart.py:convert_smart", "nilmtk/dataset_converters/smart/convert_smart.py:_convert", "nilmtk/dataset_converters/smart/convert_smart.py:_preprocess_csv", "nilmtk/dataset_converters/smart/convert_smart.py:_find_all_csv_paths"]}
{"id": "C99", "title": "compute_rmse gives every appliance its own root mean square error", "statement": "compute_rmse returns, for every appliance of the ground truth that has predictions, one entry with the root of the mean squared difference between its readings and its predictions at the instants at which both are known, under its label; labels that several appliances have are told apart by building and instance; appliances absent from the predictions, or with missing values only, are not listed.", "quantifier": "all tables of ground truth and predictions: any meters, labels, names, instants, missing values and orders of rows and columns", "why_tests_cant": "What is paired depends on the order of columns, on the instants of two indexes and on which values are missing, and the keys depend on all labels together; tests look at none of this.", "anchors": ["nilmtk/utils.py:compute_rmse", "nilmtk/elecmeter.py:ElecMeter.__repr__", "nilmtk/elecmeter.py:ElecMeter.label", "nilmtk/hashable.py:Hashable"]}
{"id": "C100", "title": "A trained legacy disaggregator survives being exported and imported", "statement": "Exporting a trained disaggregator to a file leaves it as it was, whether or not writing succeeds, and touches no other file; importing the file into any other disaggregator, with other meters about, gives one that is equal to what was exported: the same states and learnt models in the same order, with meters that read the same data. A failed export or import leaves what was there before.", "quantifier": "all trained models, all meters and their stores and windows, all outcomes of writing (done, refused, stopped after any number of bytes), all files on disk, all objects imported into, all stores that can or cannot be opened again", "why_tests_cant": "The stores of the meters are replaced by file names while the model is written and put back afterwards; that this is undone on each path, and that what is read back is what was written, depends on where writing stops, on which meters have an HDF store, and on which files are still there.", "anchors": ["nilmtk/legacy/disaggregate/combinatorial_optimisation.py: CombinatorialOptimisation.export_model, import_model", "nilmtk/legacy/disaggregate/fhmm_exact.py: FHMM.export_model, import_model", "nilmtk/legacy/disaggregate/hart_85.py: Hart85.export_model, import_model"]}
{"id": "C101", "title": "A window set in local time selects the readings taken while clocks showed those times", "statement": "DataSet.set_window(start, end) with times as local clocks show them restricts what is loaded to the readings taken when clocks in the time zone of the data set showed a time from start on and before end, across changes to and from summer time as well; windows that meet share no reading and leave none out; a window can start and end at any time.", "quantifier": "all time zones, given by their changes of offset; all start and end times, present or absent; all instants and all stored readings, chunk sizes and look-ahead", "why_tests_cant": "The ends are compared before and localised after, one at a time; whether the instants between them are those at which clocks show the times between depends on every change of offset around them. Tests use UTC or a zone far from a change.", "anchors": ["nilmtk/dataset.py: DataSet.set_window", "nilmtk/timeframe.py: TimeFrame.__init__", "nilmtk/datastore/hdfdatastore.py: HDFDataStore.load"]}
{"id": "C102", "title": "Downloading from the Dataport database gives every appliance its readings of the period asked for", "statement": "download_dataport(..., periods_to_load) gives the i-th building asked for one meter per column with readings (except those to be ignored), holding all its readings of that period, each once, in the order of time, in watts, and metadata that name the appliance of each meter; without periods_to_load, or with one end of a period left out, everything is downloaded.", "quantifier": "all database contents, tables, buildings and periods, all time zones given by their changes of offset, all numbers of stretches of ten days", "why_tests_cant": "The download goes in stretches of ten days, each numbered and described on its own; whether the parts fit together depends on which columns have readings in which stretch, on the views of the database and on changes of summer time. The database needs credentials and there is no test.", "anchors": ["nilmtk/dataset_converters/dataport/download_dataport.py: download_dataport, _dataport_dataframe_to_hdf, feed_mapping, feed_ignore, database_assert"]}
{"id": "C103", "title": "A chain of preprocessing and statistics nodes runs when its requirements are met and provides what its dry run promises", "statement": "If every node of a chain (Clip, Apply, GoodSections, TotalEnergy, DropoutRate, in any order and number) finds its requirements in the metadata of the meter or in the postconditions of the nodes upstream, the chain runs; after the run get_metadata() of the last node holds the answers of all nodes under the entries that dry_run_metadata() promised, and leaves all other metadata as they were.", "quantifier": "all chains of nodes of any length, all metadata of the meter that fit the entries the nodes write to, all answers, and all ways nilm_metadata may join two plain values", "why_tests_cant": "Every node checks its own requirements against a dry run over all nodes upstream and reads metadata that depend on which of them have results yet; the number of chains is unbounded. The tests build three chains.", "anchors": ["nilmtk/node.py: Node.check_requirements, Node.dry_run_metadata, Node.get_metadata, Node.run", "nilmtk/elecmeter.py: ElecMeter.get_source_node, ElecMeter.load", "nilmtk/preprocessing/clip.py: Clip.process", "nilmtk/preprocessing/apply.py: Apply.process", "nilmtk/stats/goodsections.py: GoodSections.process", "nilmtk/stats/totalenergy.py: TotalEnergy.process", "nilmtk/stats/dropoutrate.py: DropoutRate.process", "nilmtk/stats/dropoutrateresults.py: DropoutRateResults.to_dict", "nilmtk/stats/totalenergyresults.py: TotalEnergyResults.to_dict", "nilmtk/stats/goodsectionsresults.py: GoodSectionsResults.to_dict"]}
{"id": "C104", "title": "The Dataport converter takes exactly the eligible buildings of metadata.csv, with their places", "statement": "convert_dataport(csv_filenames, metadata_path, hdf_filename) converts exactly the buildings of metadata.csv that are metered as a whole and have 97% or more of their readings, in the order of their numbers, and describes each building that has readings in one metadata file with its own number and its city and state, beside the static metadata; neither the order of the lines of metadata.csv nor buildings without readings change the result.", "quantifier": "all contents of metadata.csv (columns, lines, empty fields), all CSV files, all sorting functions, all static metadata", "why_tests_cant": "Which line is taken depends on the whole of metadata.csv: empty fields, repeated numbers, missing columns, and on whether it has a line of descriptions. The data need a licence and there is no test.", "anchors": ["nilmtk/dataset_converters/dataport/csv_converter.py: load_dataport_metadata, create_tmp_metadata_dir, create_nilmtk_metadata, convert_dataport"]}
{"id": "C105", "title": "clear_cache() removes the cached statistics of exactly the meters it is called for", "statement": "After clear_cache() on a meter, a group or a data set, no statistic of its meters is cached, at any depth of nesting, and the statistics of all other meters stay cached; it never fails, also when nothing is cached.", "quantifier": "all histories of storing statistics and clearing caches, all nested groups, buildings, instances and contents of the cache", "why_tests_cant": "What is removed depends on the text of the keys of all meters (meter1 and meter12, groups of instances), on the nesting of groups, and on all that was stored before; tests clear the cache of one data set to start afresh.", "anchors": ["nilmtk/elecmeter.py: clear_cache, get_cached_stat, key_for_cached_stat", "nilmtk/metergroup.py: clear_cache", "nilmtk/dataset.py: clear_cache, elecs"]}
{"id": "C106", "title": "correlation_of_sum_of_submeters_with_mains() is the correlation of the mains with the submeters", "statement": "For a wired building, correlation_of_sum_of_submeters_with_mains() is Pearson's coefficient of the sum of the site meters and the sum of the meters directly below them, at all times of reading; meters further down do not count twice.", "quantifier": "all wired buildings with any number of mains meters, submeters and levels, all regular readings of any length, period and value, all group contents", "why_tests_cant": "The result combines the wiring graph, the resampling and summing of groups over their time frame, and a correlation over two streams that need not have the same samples; tests only check that it runs.", "anchors": ["nilmtk/metergroup.py: correlation_of_sum_of_submeters_with_mains, mains, meters_directly_downstream_of_mains, load, get_timeframe, sample_period", "nilmtk/electric.py: correlation", "nilmtk/elecmeter.py: load, power_series"]}
{"id": "C107", "title": "print_dict() displays metadata completely, with working links", "statement": "For every dictionary of metadata, nested to any depth, the page of print_dict() shows each key and value once, in order, in nested bullet lists; the visible text of a string is the string, and every URL in it is a link to itself.", "quantifier": "all nested dictionaries and lists of metadata, all keys, strings and formatted values", "why_tests_cant": "The page is built by joining strings, so that it depends on all characters of all values and on the nesting whether it has the intended structure; tests never read the page back.", "anchors": ["nilmtk/utils.py: dict_to_html, print_dict"]}
{"id": "C108", "title": "Loading from an HDF store gives one state of the table, although chunks are read one by one", "statement": "For every history of rows appended to the table, and of windows set on the store, while a caller goes through the chunks of load(), they get the chunks of the table as it was when they began.", "quantifier": "all tables, all rows appended between any two chunks, all windows set between them, all lists of sections, chunk sizes and look-aheads", "why_tests_cant": "load() is a generator: each chunk is read when the caller asks for it, so that the result depends on what happened to the file between any two chunks; tests read files that nobody writes to.", "anchors": ["nilmtk/datastore/hdfdatastore.py: HDFDataStore.load", "nilmtk/datastore/datastore.py: DataStore.window"]}
{"id": "C109", "title": "Splitting a GREEND file into blocks keeps every reading under its own header", "statement": "For every GREEND file, whatever headers are repeated or changed in it, the converter reads each line of readings exactly once, in order, in a block that begins with the last header before that line.", "quantifier": "all lists of lines, with null characters, repeated and changed headers and garbage before headers; all ways of reading a block, including errors", "why_tests_cant": "The blocks depend on all lines of a file up to the present one; the data set is not in the repository and no test runs the converter.", "anchors": ["nilmtk/dataset_converters/greend/convert_greend.py: _get_blocks, _process_block"]}
{"id": "C110", "title": "The tables of a converted GREEND house have the readings of its blocks", "statement": "For every list of blocks of a house, the converter writes one table for each column that occurs, with all times in order and without repetition, and with every reading of that column at its time.", "quantifier": "all lists of blocks with any columns, times and missing values; all ways of ordering rows of the same time", "why_tests_cant": "Blocks have different columns and may overlap; which readings survive joining, sorting and the removal of duplicates depends on all of them, and no test runs the converter.", "anchors": ["nilmtk/dataset_converters/greend/convert_greend.py: convert_greend"]}
{"id": "C111", "title": "Converting COMBED stores every meter with all of its readings, or raises", "statement": "For every set of files below the given path, convert_combed() stores for each meter that has any file one table of its power, energy and current, or raises an error.", "quantifier": "all sets of files present at either of the two places, all contents, all errors of reading and joining", "why_tests_cant": "Which of the files of 21 meters at two places are there is a matter of the user's disk; no test runs the converter.", "anchors": ["nilmtk/dataset_converters/combed/convert_combed.py: convert_combed, column_mapping, overall_dataset_mapping"]}
{"id": "C112", "title": "Filling the gaps of iAWE data keeps the readings and leaves nothing missing", "statement": "For every frame of a meter and every list of times, reindex_fill_na() gives a frame with exactly these times in which each reading at one of them is kept and nothing is missing: gaps are zero for powers and the median for other quantities.", "quantifier": "all frames with any columns, times and missing values, all lists of times, all medians", "why_tests_cant": "What is filled in depends on which of all times and columns have readings; no test runs the converter.", "anchors": ["nilmtk/dataset_converters/iawe/convert_iawe.py: reindex_fill_na, convert_iawe"]}
