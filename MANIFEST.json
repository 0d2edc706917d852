{
 "claims": [
  {
   "property": "C01",
   "status": "partial",
   "theorems": [
    "C01_constructor",
    "C01_set_start",
    "C01_set_end",
    "C01_never_inverted_partial",
    "C01_never_inverted_refuted"
   ],
   "note": "Holds for every history in which assignments are made while the frame is enabled; refuted in general (assign while enabled=False, re-enable)."
  },
  {
   "property": "C02",
   "status": "proved",
   "theorems": [
    "C02_intersection",
    "C02_commutative",
    "C02_associative",
    "C02_idempotent"
   ],
   "note": ""
  },
  {
   "property": "C03",
   "status": "partial",
   "theorems": [
    "C03_end_point_exact",
    "C03_end_point_refuted",
    "C03_touching_refuted"
   ],
   "note": "Exact characterisation of when the end point is treated correctly; the unconditional statement is refuted (include_end is taken from `other`; touching closed frames)."
  },
  {
   "property": "C04",
   "status": "partial",
   "theorems": [
    "C04_split_tiles",
    "C04_split_whole",
    "C04_split_rejects_nonpositive",
    "C04_split_many",
    "C04_unbounded_guard_refuted",
    "C04_include_end_refuted"
   ],
   "note": "Tiling proved for half-open frames; refuted parts: include_end is lost on the last piece, unbounded frames raise AttributeError instead of the documented ValueError (no __bool__ in Python 3)."
  },
  {
   "property": "C05",
   "status": "partial",
   "theorems": [
    "C05_merge",
    "C05_merge_gap0",
    "C05_overlapping_refuted"
   ],
   "note": "Proved for sorted non-overlapping bounded frames; for overlapping frames refuted."
  },
  {
   "property": "C06",
   "status": "partial",
   "theorems": [
    "C06_dict_roundtrip_partial",
    "C06_empty_refuted"
   ],
   "note": "Proved for non-empty frames; the empty frame round-trips to the unbounded frame (refuted)."
  },
  {
   "property": "C07",
   "status": "proved",
   "theorems": [
    "C07_group_intersection",
    "C07_group_intersection_disjoint",
    "C07_uptime_is_measure",
    "C07_uptime_extensional"
   ],
   "note": ""
  },
  {
   "property": "C08",
   "status": "proved",
   "theorems": [
    "C08_remove_shorter_than",
    "C08_remove_shorter_twice"
   ],
   "note": ""
  },
  {
   "property": "C09",
   "status": "partial",
   "theorems": [
    "C09_load_partial",
    "C09_section_exact",
    "C09_unbounded_exact",
    "C09_single_row_refuted",
    "C09_unbounded_refuted"
   ],
   "note": "Proved for every table, window, section list and chunk size outside two cases, both refuted with witnesses: a section matching exactly one row yields nothing, an unbounded load of k*chunksize+1 rows raises ValueError. Exact outcome proved for every case of one section."
  },
  {
   "property": "C10",
   "status": "proved",
   "theorems": [
    "C10_look_ahead"
   ],
   "note": ""
  },
  {
   "property": "C11",
   "status": "partial",
   "theorems": [
    "C11_all_data_partial",
    "C11_single_row_refuted"
   ],
   "note": "Proved for sections in time order that the HDF store serves (C09); a section matching one row is lost (refuted)."
  },
  {
   "property": "C12",
   "status": "partial",
   "theorems": [
    "C12_csv_section_partial",
    "C12_csv_load_partial",
    "C12_blocks_exist",
    "C12_single_row_refuted"
   ],
   "note": "Proved when no file block contributes exactly one row; otherwise load raises ValueError (both directions proved)."
  },
  {
   "property": "C13",
   "status": "partial",
   "theorems": [
    "C13_maximal_runs_partial",
    "C13_runs_exist",
    "C13_runs_unique",
    "C13_too_short",
    "C13_any_order",
    "C13_nan_look_ahead_raises"
   ],
   "note": "Proved for strictly increasing valid timestamps, any max_sample_period, flag and look-ahead with a valid row; a look-ahead of NaN rows only raises IndexError (proved)."
  },
  {
   "property": "C14",
   "status": "partial",
   "theorems": [
    "C14_chunks_partial",
    "C14_chunk_size_partial",
    "C14_no_rows",
    "C14_sparse_chunk_refuted",
    "C14_nan_look_ahead_refuted",
    "C14_sections_refuted",
    "C14_combined_twice_refuted",
    "C14_csv_refuted"
   ],
   "note": "Proved for one section of an HDF load: any chunks with two valid rows each, and any NaN-free series at any chunk size. Refuted with witnesses: chunks with fewer than two valid rows, NaN-only look-ahead, several sections (the open flag leaks), CSV chunks, and calling combined() twice."
  },
  {
   "property": "C15",
   "status": "partial",
   "theorems": [
    "C15_integral",
    "C15_energy_unique",
    "C15_nonnegative",
    "C15_monotone",
    "C15_preference",
    "C15_load_partial",
    "C15_missing_readings_lose_partial",
    "C15_missing_reading_refuted"
   ],
   "note": "Integral, monotonicity and non-negativity proved in full; independence of chunking proved for loads the HDF store serves with a reading on every row; with missing readings the total only falls short (proved) and depends on the chunk size (refuted)."
  },
  {
   "property": "C16",
   "status": "partial",
   "theorems": [
    "C16_cumulative_partial",
    "C16_cumulative_missing_refuted",
    "C16_interval_total_partial",
    "C16_one_chunk",
    "C16_interval_refuted"
   ],
   "note": "Cumulative meters proved for complete readings (a NaN at a chunk border loses the chunk: refuted). Interval meters: exact formula with the double-counted rows, exact for one chunk, refuted in general."
  },
  {
   "property": "C17",
   "status": "partial",
   "theorems": [
    "C17_dropout_rate",
    "C17_perfect_sampling",
    "C17_not_increasing_asserts",
    "C17_combined_partial",
    "C17_combined_range",
    "C17_combined_nan_refuted"
   ],
   "note": "Range and formula proved for every increasing index; the weighted mean of combined() is proved when every chunk has a rate and refuted when a chunk's rate is NaN (it weighs in as 0)."
  },
  {
   "property": "C18",
   "status": "partial",
   "theorems": [
    "C18_two_meters_partial",
    "C18_weights",
    "C18_between",
    "C18_mean_refuted"
   ],
   "note": "Mean proved for two meters; exact weights for n meters proved; the mean is refuted for three meters."
  },
  {
   "property": "C19",
   "status": "partial",
   "theorems": [
    "C19_append",
    "C19_histories_partial",
    "C19_empty_frame_refuted"
   ],
   "note": "Proved for all histories of appends of non-empty ordered frames and successful updates; appending an empty frame is refuted (it reads back as unbounded)."
  },
  {
   "property": "C20",
   "status": "proved",
   "theorems": [
    "C20_append_order"
   ],
   "note": ""
  },
  {
   "property": "C21",
   "status": "partial",
   "theorems": [
    "C21_update_partial",
    "C21_update_atomic_refuted",
    "C21_unify_adds",
    "C21_unify_rejects",
    "C21_unify_group",
    "C21_unify_extra_rows_refuted"
   ],
   "note": "unify proved; atomicity of update refuted (table assigned before the check); unify drops rows of other without counterpart (refuted as exact-match check)."
  },
  {
   "property": "C22",
   "status": "partial",
   "theorems": [
    "C22_energy_partial",
    "C22_one_type_partial",
    "C22_no_error",
    "C22_dropout_partial",
    "C22_window_refuted",
    "C22_chunks_refuted",
    "C22_types_refuted",
    "C22_no_data_refuted"
   ],
   "note": "Proved for every history of requests for energies from an HDF store with sections inside the window, one chunk per section and one choice of AC types (all, or one type that every section has), and for dropout rates of sections delivered whole. Refuted: sections reaching out of the window, sections of several chunks (both stored again at every request, then double counted), a mixture of AC types, repeated requests for sections without data (ValueError)."
  },
  {
   "property": "C23",
   "status": "partial",
   "theorems": [
    "C23_keys_partial",
    "C23_clear_partial",
    "C23_dataset_refuted",
    "C23_tuple_refuted"
   ],
   "note": "Keys of meters of one dataset determine building, instance and statistic, and clear_cache names just the statistics of its meter. Refuted: the dataset is not in the key although one cache serves all datasets; a tuple of one instance has the key of that instance."
  },
  {
   "property": "C24",
   "status": "proved",
   "theorems": [
    "C24_sound_complete",
    "C24_messages",
    "C24_raises"
   ],
   "note": "check_requirements and its messages, any depth; metadata is any nested dictionary without repeated keys."
  },
  {
   "property": "C25",
   "status": "partial",
   "theorems": [
    "C25_nearest_partial",
    "C25_shape",
    "C25_in_range",
    "C25_monotone",
    "C25_idempotent",
    "C25_chunks",
    "C25_before_energy",
    "C25_one_sided_refuted"
   ],
   "note": "Proved for columns with both limits; a single limit is not applied (refuted)."
  },
  {
   "property": "C26",
   "status": "proved",
   "theorems": [
    "C26_best",
    "C26_set_only"
   ],
   "note": "Any lists of names."
  },
  {
   "property": "C27",
   "status": "proved",
   "theorems": [
    "C27_exact",
    "C27_found",
    "C27_nothing",
    "C27_error",
    "C27_columns",
    "C27_best_drops_refuted",
    "C27_best_in_list"
   ],
   "note": "Proved for every metadata, request and set order: the result is exactly the available columns the request asks for, or MeasurementError. C27_best_drops_refuted records that the stronger reading (ac_type='best' keeps requested quantities that have no AC type) is false. Nested lists of names are left out."
  },
  {
   "property": "C28",
   "status": "partial",
   "theorems": [
    "C28_round_trip",
    "C28_injective",
    "C28_accepted",
    "C28_utility_refuted",
    "C28_lenient_refuted",
    "C28_rejects",
    "C28_join_components",
    "C28_join_canonical",
    "C28_join_again",
    "C28_join_double_slash_refuted"
   ],
   "note": "Round trip of building and meter, injectivity, acceptance and rejection, and join_key (components kept for all arguments, canonical result for arguments without inner double slashes) are proved. Refuted: the utility is not kept by repr, paths below a meter are read as the building, inner double slashes stay."
  },
  {
   "property": "C29",
   "status": "proved",
   "theorems": [
    "C29_closest",
    "C29_missing_target",
    "C29_no_values"
   ],
   "note": "For every array, every sorting permutation and every target. A NaN target gets the largest element; an empty array raises IndexError."
  },
  {
   "property": "C30",
   "status": "proved",
   "theorems": [
    "C30_optimal",
    "C30_missing_reading"
   ],
   "note": "For every list of state lists and every mains reading; also what a missing mains reading is given (a combination of highest power). Learning of the states (cluster.py) is modelled elsewhere."
  },
  {
   "property": "C31",
   "status": "partial",
   "theorems": [
    "C31_additive",
    "C31_total",
    "C31_chunking_partial",
    "C31_equal_bins",
    "C31_failure",
    "C31_default_bins",
    "C31_narrow",
    "C31_flat",
    "C31_open_range",
    "C31_open_empty",
    "C31_open_range_refuted"
   ],
   "note": "The result is the histogram of the concatenation over the returned edges, for all arguments; independence of chunking holds for given edges or given bins and range, and is refuted when the range is taken from the first chunk."
  },
  {
   "property": "C32",
   "status": "partial",
   "theorems": [
    "C32_on_periods",
    "C32_exact",
    "C32_disjoint_partial",
    "C32_edges_refuted",
    "C32_disjoint_refuted",
    "C32_border_refuted",
    "C32_missing_refuted"
   ],
   "note": "Proved: never raises on time-ordered series, reports exactly the long enough on-periods without missing rows, short off-periods bridged; disjoint without border. Refuted: runs touching either end of the series, disjointness with a border, symmetric border, and a missing reading discards the on-period next to it."
  },
  {
   "property": "C33",
   "status": "partial",
   "theorems": [
    "C33_mean_partial",
    "C33_bound",
    "C33_missing_is_zero",
    "C33_untrained",
    "C33_chunking_refuted",
    "C33_missing_refuted"
   ],
   "note": "Exact when every call's readings sum to a whole number and none is missing; otherwise off by at most one per call in the total. Refuted: independence of chunking (truncation), and missing readings count as zero."
  },
  {
   "property": "C34",
   "status": "partial",
   "theorems": [
    "C34_sum_partial",
    "C34_works_partial",
    "C34_mean_partial",
    "C34_order",
    "C34_load_partial",
    "C34_no_loss_partial",
    "C34_disjoint_partial",
    "C34_voltage_refuted",
    "C34_mean_refuted",
    "C34_phase_angle_refuted",
    "C34_lone_refuted",
    "C34_grid_refuted",
    "C34_cut_refuted"
   ],
   "note": "Proved for all meters, columns and NaN patterns: power and energy columns are the sum of the valid readings (NaN iff none); the order of the meters does not matter; from the meters' data, the index is the bins of the section and every cell is the sum of the resampled contributions. Missing: means. With the required pandas (>= 2.0) any averaged quantity makes load raise ValueError (a set is passed as columns); with a pandas that accepts it the mean is proved for meters without NaN, and refuted with NaN. Also refuted: phase angles are summed, a lone reading in a section is lost, bins that do not divide a day lose data, section boundaries inside a bin give the time stamp twice. Float32 rounding and clock changes are not modelled."
  },
  {
   "property": "C35",
   "status": "partial",
   "theorems": [
    "C35_partition",
    "C35_mains_shape",
    "C35_mains_refuses",
    "C35_empty_nested_refuted",
    "C35_alternative_keeps",
    "C35_alternative_swaps",
    "C35_union",
    "C35_union_type",
    "C35_union_nested_refuted",
    "C35_select",
    "C35_select_list",
    "C35_select_twice_refuted"
   ],
   "note": "Proved: mains/submeters partition the group in order, mains is refused exactly for several buildings (no empty nested groups), use_alternative_mains keeps every meter for all groups and swaps exactly the site meters, union of groups of meters has each once, select is exact. Refuted: equal nested groups with a different order of meters hash differently, so union can keep both; an empty nested group makes mains() raise; select with a list of values can select a meter twice. Hash collisions of different keys are not modelled."
  },
  {
   "property": "C36",
   "status": "partial",
   "theorems": [
    "C36_split",
    "C36_one_section",
    "C36_monotone",
    "C36_refuses",
    "C36_none_refuted"
   ],
   "note": "Proved for every list of sections, sample period and fraction in exact arithmetic (the loop is shown to end in its first round). Refuted: with several sections all shorter than the sample period (or none at all) None is returned instead of a time. Float rounding and the microsecond rounding of timedelta are not modelled."
  },
  {
   "property": "C37",
   "status": "partial",
   "theorems": [
    "C37_fractions",
    "C37_top_partition",
    "C37_top_best",
    "C37_negative_refuted",
    "C37_remainder",
    "C37_remainder_missing",
    "C37_remainder_refuted"
   ],
   "note": "Proved in exact arithmetic with sort_values as an oracle (any sorted order, NaNs last): fractions sum to 1 whenever the total is not 0, selection and remainder partition the meters for every k, and no unselected meter is preferable when the total is positive. Refuted: with a negative total the order is reversed, and energy_per_meter(mains=...) always raises AttributeError because utils.most_common calls Series.sort, which the required pandas (>= 2.0) does not have; with such a method the remainder is proved right."
  },
  {
   "property": "C38",
   "status": "partial",
   "theorems": [
    "C38_pearson_partial",
    "C38_bounds_partial",
    "C38_symmetric_partial",
    "C38_chunks_partial",
    "C38_self_partial",
    "C38_few",
    "C38_span_refuted",
    "C38_chunks_refuted",
    "C38_gap_refuted"
   ],
   "note": "Over the reals (standard library Reals axioms). Proved for two meters whose chunks have the same time stamps and no NaN: the result is NaN exactly for fewer than two samples or a constant series, otherwise Pearson's coefficient; it is within [-1,1], symmetric, independent of the chunking, 1 for a meter with itself. Refuted in general: meters over different spans give 2 one way and 1/2 the other way; cutting one of the series differently changes 1 into 1/2; unfilled gaps count as samples."
  },
  {
   "property": "C39",
   "status": "proved",
   "theorems": [
    "C39_pairs",
    "C39_buffer",
    "C39_lost_refuted",
    "C39_reactive_refuted"
   ],
   "note": "Every stream, buffer size and tolerance. Additionally refuted: an ON/OFF pair is lost when the full buffer drops its oldest entry; reactive power alone, documented as valid, raises."
  },
  {
   "property": "C40",
   "status": "partial",
   "theorems": [
    "C40_states",
    "C40_report",
    "C40_no_event_refuted",
    "C40_whole_change_refuted",
    "C40_chunks_refuted",
    "C40_load",
    "C40_load_report",
    "C40_columns"
   ],
   "note": "Proved for every series with one or two columns: the split into states, levels as means, selection of changes above the noise level, times and order of the report. Three parts of the property are false of the code and are refuted with witnesses: a series without event raises IndexError, adjacent reported levels need not differ by the reported transition, and the result depends on chunking. Chunk-wise loading is proved to give the concatenation of the per-chunk results. NaN is dropped before; float rounding not modelled."
  },
  {
   "property": "C41",
   "status": "partial",
   "theorems": [
    "C41_combination",
    "C41_bijection",
    "C41_stochastic",
    "C41_sorting_partial",
    "C41_sorting_general",
    "C41_ties_refuted",
    "C41_no_model"
   ],
   "note": "Combination, decoding (bijection) and stochasticity proved for any number of appliances and states. Sorting is proved to be one permutation of all parameters when the means are distinct, and characterised in general; with equal means it is refuted (parameters of the first state are duplicated). Exact rational arithmetic: float division in decode_hmm is modelled by exact division."
  },
  {
   "property": "C42",
   "status": "proved",
   "theorems": [
    "C42_dropna",
    "C42_aggregate",
    "C42_aggregate_without_dropna_refuted"
   ],
   "note": "dropna and the artificial aggregate built from its result; without dropping, the aggregate is refuted to be the sum."
  },
  {
   "property": "C43",
   "status": "partial",
   "theorems": [
    "C43_mae",
    "C43_rmse",
    "C43_f1",
    "C43_f1_harmonic",
    "C43_f1_off_refuted",
    "C43_relative_partial",
    "C43_relative_refuted",
    "C43_r2",
    "C43_nde",
    "C43_nep_partial",
    "C43_nep_refuted",
    "C43_rms",
    "C43_rms_chunks",
    "C43_mne_partial",
    "C43_mne_chunks",
    "C43_nothing_refuted",
    "C43_f1_chunked",
    "C43_f1_chunks_refuted",
    "C43_fraction_partial",
    "C43_fraction_refuted",
    "C43_align_partial",
    "C43_align_all_partial",
    "C43_align_short_refuted",
    "C43_align_midnight_refuted",
    "C43_on_period"
   ],
   "note": "Square roots are over the reals (standard library Reals axioms). Proved: mae, rmse (mae <= rmse), r2score, nde and the chunked rms error for all inputs; f1score in [0,1] and equal to the harmonic mean of precision and recall; relative_error for predictions above -1, nep and mne for a positive true energy; the energy fraction for valid non-negative energies that are not all zero; independence of chunking of rms and mne; what align_two_meters compares. Refuted: a right all-off prediction has f1 0; relative_error and nep can be negative; the chunked f1 depends on the chunks; a prediction without energy gets the fraction 1; a slave without data raises ZeroDivisionError; a one-sample chunk ends the comparison; bins that do not divide a day may never coincide."
  },
  {
   "property": "C44",
   "status": "proved",
   "theorems": [
    "C44_meter_conjunctive",
    "C44_appliance_conjunctive",
    "C44_meter_meaning",
    "C44_appliance_meaning",
    "C44_order",
    "C44_empty",
    "C44_not_a_dictionary",
    "C44_meter_unknown",
    "C44_appliance_unknown",
    "C44_own_type_refuted",
    "C44_count_refuted",
    "C44_category_refuted",
    "C44_appliances_order_refuted"
   ],
   "note": "Proved for appliances and meters, every metadata, type table and query. The refuted theorems record stronger readings that fail: an appliance of unrecognised type raises KeyError when asked for its own type, metadata words that are namedtuple methods (count, index) never match, a type without categories raises AttributeError, and matches_appliances depends on the order of the appliances."
  },
  {
   "property": "C45",
   "status": "partial",
   "theorems": [
    "C45_values",
    "C45_between_partial",
    "C45_on_event",
    "C45_off_event",
    "C45_last",
    "C45_last_refuted",
    "C45_off_refuted"
   ],
   "note": "Exact at every sample without event except the last; the sample of an on event keeps the state before. Refuted at the last sample and for an off event right after an on event."
  },
  {
   "property": "C46",
   "status": "partial",
   "theorems": [
    "C46_eq_hash",
    "C46_eq_same_instants",
    "C46_same_instants_eq",
    "C46_lt_strict_order",
    "C46_lt_unbounded_refuted"
   ],
   "note": "Strict order needs the left frame to have a start; two unbounded starts raise TypeError (refuted)."
  },
  {
   "property": "C47",
   "status": "partial",
   "theorems": [
    "C47_nrows",
    "C47_get_timeframe_partial",
    "C47_last_sample_refuted"
   ],
   "note": "Row count proved; the reported time frame leaves out the last sample (refuted)."
  },
  {
   "property": "C48",
   "status": "partial",
   "theorems": [
    "C48_attribution",
    "C48_without_dropna_refuted",
    "C48_too_few"
   ],
   "note": "Attribution of predictions proved when missing values are dropped; refuted without."
  },
  {
   "property": "C49",
   "status": "partial",
   "theorems": [
    "C49_chunk_wise_partial",
    "C49_misaligned_refuted"
   ],
   "note": "Soundness always; completeness when same-numbered chunks cover the same period; refuted otherwise."
  },
  {
   "property": "C50",
   "status": "partial",
   "theorems": [
    "C50_training",
    "C50_repeated",
    "C50_predictions",
    "C50_index_refuted",
    "C50_columns_refuted"
   ],
   "note": "Training and predicted powers proved with hmmlearn as an oracle; refuted: the prediction frame loses the time stamps, and its columns differ between empty and non-empty chunks when an appliance has no samples."
  },
  {
   "property": "C51",
   "status": "proved",
   "theorems": [
    "C51_resample",
    "C51_not_stale",
    "C51_repeated"
   ],
   "note": "Series.resample and ffill of pandas are modelled by their documented behaviour."
  },
  {
   "property": "C52",
   "status": "partial",
   "theorems": [
    "C52_all_data",
    "C52_all_times",
    "C52_resampled_partial",
    "C52_split_bin_refuted",
    "C52_overlap_refuted"
   ],
   "note": "Proved: nothing lost or repeated if consecutive chunks share at most their boundary time stamp, also for consecutive stretches of data resampled chunk by chunk on one grid. Refuted: a bin cut by a chunk boundary has the mean of its first part only; chunks that overlap by more than one row leave repeated time stamps."
  },
  {
   "property": "C53",
   "status": "partial",
   "theorems": [
    "C53_every_meter_once",
    "C53_layout",
    "C53_attached",
    "C53_success",
    "C53_mains_partial",
    "C53_order_refuted",
    "C53_disabled_refuted",
    "C53_mains_refuted"
   ],
   "note": "Every meter once: proved for every import that succeeds. Layout, attached appliances and the exact condition for success: proved when no appliance is on meter 0 (the mains). Appliances on meter 0: proved when every appliance has one meter. Refuted: independence of the order of the appliances, disabling of meters in nested groups, appliances on mains that are nested groups. Other metadata, device loading and the global meter group are not modelled here."
  },
  {
   "property": "C54",
   "status": "partial",
   "theorems": [
    "C54_span",
    "C54_covers",
    "C54_raises",
    "C54_first_empty_refuted",
    "C54_empty_group_refuted",
    "C54_leading_empty"
   ],
   "note": "Holds when the first meter of each group has a bounded frame; refuted when the first meter has nothing in the window (TypeError) and for an inner group without meters (AttributeError)."
  },
  {
   "property": "C55",
   "status": "partial",
   "theorems": [
    "C55_sum",
    "C55_types",
    "C55_incomplete",
    "C55_types_refuted",
    "C55_dropout_flat",
    "C55_dropout_range",
    "C55_dropout_nested_refuted"
   ],
   "note": "Sum proved when every meter records the AC type; refuted when meters record different AC types or one has no readings (NaN or missing type). Dropout rate: mean of a flat group and range proved; for nested groups the mean of the meters is refuted (mean of means). Full results are C21_unify_group."
  },
  {
   "property": "C56",
   "status": "partial",
   "theorems": [
    "C56_mean",
    "C56_range",
    "C56_submetered",
    "C56_submetered_none",
    "C56_submetered_range",
    "C56_nan_refuted",
    "C56_no_common_type_refuted",
    "C56_no_energy"
   ],
   "note": "Mean, range and sum proved for meters with an AC type in common for which the mains have energy; refuted: NaN although the mains have energy, and ratio of different AC types."
  },
  {
   "property": "C57",
   "status": "partial",
   "theorems": [
    "C57_readings",
    "C57_until_blank_partial",
    "C57_rows",
    "C57_index",
    "C57_blank_refuted",
    "C57_misaligned_refuted"
   ],
   "note": "Proved unless a round in which no meter has data is followed by further data (then the rest is lost: C57_blank_refuted); unique index proved for aligned chunks, refuted for misaligned ones."
  },
  {
   "property": "C58",
   "status": "partial",
   "theorems": [
    "C58_upstream",
    "C58_upstream_unknown",
    "C58_upstream_mains",
    "C58_downstream",
    "C58_group",
    "C58_group_several",
    "C58_unwired",
    "C58_elsewhere",
    "C58_registered",
    "C58_two_tops",
    "C58_second_dataset_refuted",
    "C58_disabled_mains_refuted",
    "C58_no_submeters_refuted"
   ],
   "note": "Proved when each meter is created once and the meters hang below one top; refuted: a data set opened twice yields upstream meters of the first, disabled mains are included, a group without submeters raises."
  },
  {
   "property": "C59",
   "status": "partial",
   "theorems": [
    "C59_dominant",
    "C59_group_dominant",
    "C59_groups",
    "C59_members",
    "C59_complete_partial",
    "C59_overlap_refuted",
    "C59_mains_refuted",
    "C59_category_refuted",
    "C59_list_refuted"
   ],
   "note": "Groups, members and dominant appliances proved; completeness proved for meters with one appliance; refuted: meters in several groups, a meter without appliances raises AttributeError, groupby('category') gives nothing, lists in an appliance's own metadata raise KeyError."
  },
  {
   "property": "C60",
   "status": "partial",
   "theorems": [
    "C60_to_csv_partial",
    "C60_meters",
    "C60_metadata",
    "C60_single_reading_refuted",
    "C60_large_refuted",
    "C60_to_hdf_refuted",
    "C60_from_csv_refuted"
   ],
   "note": "HDF5 to CSV proved for tables of 2 to chunksize rows, with an exact characterisation of the others; refuted: single readings are lost, larger tables are garbled or raise, conversion into a new HDF5 file always raises, conversion from CSV copies no readings."
  },
  {
   "property": "C61",
   "status": "partial",
   "theorems": [
    "C61_csv_put_partial",
    "C61_csv_append_new_partial",
    "C61_csv_append_refuted",
    "C61_csv_other",
    "C61_csv_files",
    "C61_hdf_append_partial",
    "C61_hdf_append_other",
    "C61_hdf_put_partial",
    "C61_hdf_put_other",
    "C61_put_empty_refuted"
   ],
   "note": "Put and append proved for tables that load in one chunk (2 to chunksize rows), and that other keys are unchanged; refuted: appending to a CSV file with readings, putting an empty frame."
  },
  {
   "property": "C62",
   "status": "proved",
   "theorems": [
    "C62_independent",
    "C62_chunks",
    "C62_house",
    "C62_train",
    "C62_later_chunks_refuted",
    "C62_extra_refuted",
    "C62_no_classifier_refuted"
   ],
   "note": "For all houses, classifiers, loss functions: tests on several houses equal the separate tests (including which error is raised), chunk-wise testing equals testing each chunk as a house, the report on one house is faithful, joint training pairs frames by house and timestamp. Refuted parts: only the first chunk of each load is used in a joint experiment; a classifier that predicts an appliance outside the experiment makes the test fail with KeyError; no classifiers at all give AttributeError."
  },
  {
   "property": "C63",
   "status": "proved",
   "theorems": [
    "C63_chunks",
    "C63_sound",
    "C63_complete_partial",
    "C63_order",
    "C63_simultaneous",
    "C63_boundary_refuted",
    "C63_missing_refuted"
   ],
   "note": "For all chunked series. Refuted strengthenings: a jump between the last reading of a chunk and the first of the next is lost (so the result depends on chunking; C63_complete_partial says these are the only ones lost), and a missing reading hides a jump across it. Timestamps are modelled as integers (the code returns integer nanoseconds, not datetimes)."
  },
  {
   "property": "C64",
   "status": "proved",
   "theorems": [
    "C64_appliance",
    "C64_meter",
    "C64_unknown",
    "C64_more",
    "C64_durations",
    "C64_when_on",
    "C64_activations",
    "C64_activations_found",
    "C64_vampire",
    "C64_vampire_refuted",
    "C64_chunks_refuted"
   ],
   "note": "For all appliances, types and chunks, including the exact condition for KeyError. Refuted strengthenings: vampire_power without data is an AttributeError; activations across a chunk boundary are lost."
  },
  {
   "property": "C65",
   "status": "partial",
   "theorems": [
    "C65_script",
    "C65_by_turns_partial",
    "C65_file",
    "C65_works",
    "C65_no_appliance",
    "C65_by_turns_refuted",
    "C65_same_appliance_refuted"
   ],
   "note": "Contents and order of every script, one script per key and which one, success and failure: proved. Alternation proved without border or when off-periods that count have more rows than both borders; refuted for the fixed border of one row with short pauses. Refuted: of two submeters with the same dominant appliance only the last one's script survives; a submeter without appliances raises AttributeError (C65_no_appliance). Key collisions by replacing spaces in type names are not modelled."
  },
  {
   "property": "C66",
   "status": "partial",
   "theorems": [
    "C66_meter_id",
    "C66_meter_id_meter",
    "C66_group_id",
    "C66_list",
    "C66_instances",
    "C66_mains",
    "C66_triple",
    "C66_number",
    "C66_number_sound",
    "C66_appliance",
    "C66_appliance_errors",
    "C66_pair",
    "C66_type_error",
    "C66_from_list",
    "C66_from_list_total",
    "C66_round_trip",
    "C66_repeated",
    "C66_other_group_refuted",
    "C66_documented_refuted",
    "C66_nested_refuted",
    "C66_deep_refuted",
    "C66_silent_refuted"
   ],
   "note": "Every kind of key: result characterised, KeyError, ambiguity and TypeError exactly as documented, proved; the lookup by number gives the only such meter when groups are nested once. Refuted: a meter in a nested group is not found by its identifier; a meter two groups deep is not found by number, so that one of two meters with the same number can be returned silently; the documented MeterGroupID example never retrieves anything; from_other_metergroup returns an empty group or raises, KeyError for every group of ordinary meters."
  },
  {
   "property": "C67",
   "status": "partial",
   "theorems": [
    "C67_samples",
    "C67_states",
    "C67_off",
    "C67_found",
    "C67_best",
    "C67_default_refuted",
    "C67_hart",
    "C67_hart_columns",
    "C67_hart_order_refuted"
   ],
   "note": "Samples, states, off state, bounds, success and failure, and the choice by silhouette score are proved with KMeans, the silhouette score, MeanShift and the random draws as unconstrained or minimally constrained arguments. Refuted: with the default limit of 3 the documented choice between 2 and 3 never happens, two clusters are always taken; Hart's centres get swapped names when the columns are not in the order active, reactive, apparent."
  },
  {
   "property": "C68",
   "status": "partial",
   "theorems": [
    "C68_set_window",
    "C68_set_window_errors",
    "C68_window",
    "C68_load",
    "C68_sections",
    "C68_confined",
    "C68_no_interference",
    "C68_missing",
    "C68_late_window_refuted",
    "C68_mixed_windows_refuted"
   ],
   "note": "Everything is proved for all interleavings of operations on an unchanging HDF store, except the last sentence, which is false: load is a generator, so the window is read when each section is begun; a later set_window changes what an earlier load delivers, and one load can mix rows of two disjoint windows."
  },
  {
   "property": "C69",
   "status": "partial",
   "theorems": [
    "C69_pairs",
    "C69_missing",
    "C69_metric_partial",
    "C69_metric_last",
    "C69_metric_total",
    "C69_several_refuted",
    "C69_lost_refuted"
   ],
   "note": "Pairing and KeyError are proved for submeters with ordinary identifiers (a number other than 0, or groups of such). One entry per submeter is proved for submeters with different instances; refuted in general: with predictions for two buildings the scores are stored under the instance only, and the last one replaces the others. Ground truth from several data sets always raises. The Series itself (e.g. a MultiIndex for tuples) is not modelled."
  },
  {
   "property": "C70",
   "status": "partial",
   "theorems": [
    "C70_estimates",
    "C70_chunk_errors",
    "C70_train",
    "C70_train_again",
    "C70_output",
    "C70_metadata",
    "C70_untrained",
    "C70_layout_error",
    "C70_short_refuted",
    "C70_instance_one_refuted",
    "C70_same_instance_refuted",
    "C70_again_refuted",
    "C70_two_buildings_refuted",
    "C70_failed_train_refuted"
   ],
   "note": "Proved for every history (reachable), stream and failure point under distinct instances other than 1 (own_keys) and one column layout (fits). The refuted parts show what the code does otherwise. cluster, power_series and argsort are arguments; MeterGroups as training_metadata are not modelled."
  },
  {
   "property": "C71",
   "status": "partial",
   "theorems": [
    "C71_listing_order",
    "C71_buildings",
    "C71_errors",
    "C71_order",
    "C71_numeric_partial",
    "C71_numeric_refuted",
    "C71_replaced_refuted",
    "C71_save_refuted"
   ],
   "note": "Numeric order is proved for one-digit numbers and refuted in general; unique buildings and save are refuted. MeterGroup.import_metadata is an argument here (see C53 for the meters)."
  },
  {
   "property": "C72",
   "status": "partial",
   "theorems": [
    "C72_train",
    "C72_predictions",
    "C72_chunkwise_refuted",
    "C72_houses_refuted",
    "C72_quiet_refuted",
    "C72_frames_refuted",
    "C72_first_frame_refuted",
    "C72_last_reading_refuted",
    "C72_sum_refuted",
    "C72_train_quiet_refuted",
    "C72_centroids"
   ],
   "note": "Mains with one column as given by the API; MeanShift is an arbitrary function; writes through a row of the states frame are assumed to reach it (pandas 2). The failures listed in the statement are proved as _refuted."
  },
  {
   "property": "C73",
   "status": "partial",
   "theorems": [
    "C73_redd_partial",
    "C73_redd_succeeds",
    "C73_redd_interrupted",
    "C73_ukdale_partial",
    "C73_ukdale_succeeds",
    "C73_many_refuted",
    "C73_other_names_refuted",
    "C73_shared_mains_refuted",
    "C73_order_refuted",
    "C73_keeps_first_refuted"
   ],
   "note": "Partial: the import is proved for houses 1 to 9 and channels 1 to 99, others are left out (C73_many_refuted). Names are ASCII; reading a file gives rows or an exception; sort_index is any function that sorts; metadata written at the end are not modelled."
  },
  {
   "property": "C74",
   "status": "partial",
   "theorems": [
    "C74_uptime",
    "C74_average",
    "C74_level",
    "C74_constant",
    "C74_gaps_refuted",
    "C74_whole",
    "C74_group",
    "C74_group_first",
    "C74_group_refuted",
    "C74_month",
    "C74_month_exact",
    "C74_date_refuted"
   ],
   "note": "Partial: proved for tables without missing values whose energy is computed from power; the bounds fail with gaps (C74_gaps_refuted), the sum for groups with different uptimes (C74_group_refuted), independence of the date for months and business days (C74_date_refuted). One AC type; joules instead of kWh; no cache."
  },
  {
   "property": "C75",
   "status": "partial",
   "theorems": [
    "C75_own_partial",
    "C75_series_partial",
    "C75_shared_refuted",
    "C75_again_refuted",
    "C75_limit_refuted",
    "C75_failed_refuted",
    "C75_twice_refuted",
    "C75_circle"
   ],
   "note": "Partial: proved for a load whose list, nodes and options no other call uses, and for power_series calls that share lists without another resampling through the same list; refuted for shared lists (C75_shared_refuted, C75_again_refuted, C75_failed_refuted), shared options (C75_limit_refuted) and repeated nodes (C75_twice_refuted)."
  },
  {
   "property": "C76",
   "status": "partial",
   "theorems": [
    "C76_single_partial",
    "C76_tables_partial",
    "C76_buildings",
    "C76_metadata",
    "C76_file",
    "C76_errors",
    "C76_order",
    "C76_mixed_refuted",
    "C76_listed_refuted",
    "C76_chunks_refuted",
    "C76_twice_refuted"
   ],
   "note": "Partial: proved in full for buildings whose rows are in one file with the same columns in every chunk (C76_single_partial); in general the tables are the concatenation of the m-th columns of the files (C76_tables_partial); refuted for several files (C76_mixed_refuted, C76_listed_refuted), for chunk sizes (C76_chunks_refuted) and for repeated buildings (C76_twice_refuted)."
  },
  {
   "property": "C77",
   "status": "partial",
   "theorems": [
    "C77_training_partial",
    "C77_results",
    "C77_alone",
    "C77_positional_refuted",
    "C77_hart_refuted",
    "C77_co_refuted",
    "C77_epochs_refuted"
   ],
   "note": "Partial: the calls made by a successful experiment are exactly the ones asked for (C77_training_partial), but chunk by chunk they always have the epoch as a further argument; refuted for Mean and every classifier without further parameters (C77_positional_refuted), Hart85 (C77_hart_refuted), CO (C77_co_refuted), and for repeated experiments (C77_epochs_refuted)."
  },
  {
   "property": "C78",
   "status": "partial",
   "theorems": [
    "C78_roundtrip",
    "C78_sessions",
    "C78_predictions",
    "C78_crash_partial",
    "C78_lost_refuted",
    "C78_full_refuted",
    "C78_trailing"
   ],
   "note": "Partial: round trip, sessions and predictions hold in full (C78_roundtrip, C78_sessions, C78_predictions); after a crash nothing wrong is loaded (C78_crash_partial), but the saved model is lost at every crash point inside the write (C78_lost_refuted, C78_full_refuted). CO, FHMM and Hart85 have no save_model or load_model."
  },
  {
   "property": "C79",
   "status": "partial",
   "theorems": [
    "C79_imported",
    "C79_own_partial",
    "C79_mixed_refuted",
    "C79_witness_refuted",
    "C79_interrupted",
    "C79_pandas_refuted"
   ],
   "note": "Partial: C79_imported says exactly what is stored and described; the property holds where each chunk has readings of one appliance only (C79_own_partial) and fails otherwise (C79_mixed_refuted, C79_witness_refuted); C79_interrupted covers unreadable chunks and times. With pandas 2 or later the converter always raises (C79_pandas_refuted). Readings are stored times ten although the file counts tenths."
  },
  {
   "property": "C80",
   "status": "partial",
   "theorems": [
    "C80_latest",
    "C80_answers",
    "C80_no_device",
    "C80_own_partial",
    "C80_other_refuted",
    "C80_witness_refuted"
   ],
   "note": "Partial: C80_latest determines the device after any history; the property holds where the data sets opened agree on the device model (C80_own_partial) and fails for every other data set that describes the model differently (C80_other_refuted, C80_witness_refuted). Statistics already in the cache are the subject of C22 and C23."
  },
  {
   "property": "C81",
   "status": "partial",
   "theorems": [
    "C81_same_data_partial",
    "C81_timeframe",
    "C81_energy_partial",
    "C81_energy_less_partial",
    "C81_energy_refuted",
    "C81_end_refuted",
    "C81_one_row_refuted"
   ],
   "note": "Partial: same series for all requests both formats serve (C81_same_data_partial), same period always (C81_timeframe), same energy when the file is one block (C81_energy_partial), never more otherwise (C81_energy_less_partial). The unrestricted property is false: C81_energy_refuted, C81_end_refuted, C81_one_row_refuted."
  },
  {
   "property": "C82",
   "status": "partial",
   "theorems": [
    "C82_energy",
    "C82_energy_few",
    "C82_split",
    "C82_good_partial",
    "C82_good_few",
    "C82_good_refuted",
    "C82_dropout_range",
    "C82_dropout_partial",
    "C82_dropout_refuted",
    "C82_dropout_single_refuted",
    "C82_dropout_witness_refuted",
    "C82_short"
   ],
   "note": "Partial: the energy is proved in full (C82_energy, C82_energy_few, C82_split, C82_short); good sections for series without missing values and windows that do not end at a sample after which the run goes on (C82_good_partial, C82_good_few), refuted there (C82_good_refuted); the dropout rate for one chunk (C82_dropout_partial, C82_dropout_range), refuted for smaller ones (C82_dropout_refuted, C82_dropout_witness_refuted) and for a window with one reading (C82_dropout_single_refuted)."
  },
  {
   "property": "C83",
   "status": "partial",
   "theorems": [
    "C83_dropout_partial",
    "C83_range",
    "C83_gaps_ignored",
    "C83_dropout_refuted",
    "C83_energy",
    "C83_energy_less",
    "C83_energy_refuted",
    "C83_missing_partial",
    "C83_no_complete_row_refuted"
   ],
   "note": "Refuted parts: good sections are half-open except the last one, so the last reading of every section but the last is left out and the energy used up to it is lost (C83_energy_refuted); no section of two readings left raises KeyError (C83_dropout_refuted); a table whose rows all have a missing value has no energy in good sections (C83_no_complete_row_refuted). Missing values are covered for a table loaded in one chunk (C83_missing_partial); for smaller chunks see C14_sparse_chunk_refuted. The value of the dropout rate is stated for one chunk per section; other chunk sizes have the range and the regular case only, because the value depends on the chunk size (C82_dropout_witness_refuted)."
  },
  {
   "property": "C84",
   "status": "partial",
   "theorems": [
    "C84_value",
    "C84_range",
    "C84_submetered",
    "C84_submetered_sum",
    "C84_clock_refuted",
    "C84_upstream",
    "C84_upstream_types_refuted",
    "C84_upstream_extra_refuted",
    "C84_upstream_none_refuted",
    "C84_no_complete_row_refuted"
   ],
   "note": "Refuted parts: a submeter that reports at fewer times than the mains can have a proportion above 1 although it never reads more (C84_clock_refuted); proportion_of_upstream gives NaN for meters of different AC types where proportion_of_energy divides one by the other (C84_upstream_types_refuted), or if the meter also records a better AC type than the upstream meter (C84_upstream_extra_refuted), and raises KeyError if the upstream meter has no good section with data (C84_upstream_none_refuted); a mains table whose rows all have a missing value gives NaN (C84_no_complete_row_refuted)."
  },
  {
   "property": "C85",
   "status": "partial",
   "theorems": [
    "C85_pairwise",
    "C85_pairwise_raises",
    "C85_pairwise_order",
    "C85_correlation_partial",
    "C85_correlation_order_partial",
    "C85_correlation_order_refuted",
    "C85_each",
    "C85_upstream",
    "C85_upstream_site_refuted",
    "C85_sample_period",
    "C85_sample_period_refuted",
    "C85_ac_types",
    "C85_ac_types_once",
    "C85_ac_types_refused",
    "C85_quantities",
    "C85_sort",
    "C85_sort_refuted"
   ],
   "note": "Refuted parts: the table of correlations depends on the order of the meters if they do not report at the same times (C85_correlation_order_refuted); no table of upstream proportions for a group with a site meter (C85_upstream_site_refuted); sample_period raises TypeError if one of several meters has no device (C85_sample_period_refuted); a group of meters and groups cannot be sorted (C85_sort_refuted)."
  },
  {
   "property": "C86",
   "status": "partial",
   "theorems": [
    "C86_redd",
    "C86_redd_order",
    "C86_ukdale",
    "C86_ukdale_mains",
    "C86_ukdale_order_refuted",
    "C86_redd_constant",
    "C86_redd_missing"
   ],
   "note": "Refuted part: convert_ukdale does not sort, so lines out of order give a wrong energy (C86_ukdale_order_refuted). REDD times are taken to be distinct within a file (REDD keeps repeated times)."
  },
  {
   "property": "C87",
   "status": "partial",
   "theorems": [
    "C87_refit",
    "C87_refit_usual",
    "C87_refit_succeeds",
    "C87_refit_interrupted",
    "C87_refit_columns_refuted",
    "C87_dred",
    "C87_dred_succeeds",
    "C87_dred_fails"
   ],
   "note": "Refuted part: the position of a column, not its name, decides which meter it becomes (C87_refit_columns_refuted)."
  },
  {
   "property": "C88",
   "status": "partial",
   "theorems": [
    "C88_bound",
    "C88_relative",
    "C88_order",
    "C88_whole",
    "C88_exact",
    "C88_sign",
    "C88_zero",
    "C88_monotone",
    "C88_columns",
    "C88_double",
    "C88_double_rounds",
    "C88_signs_refuted"
   ],
   "note": "Refuted part: with readings of both signs the energy can be lost entirely and depends on the order of additions (C88_signs_refuted). Overflow and underflow are not modelled."
  },
  {
   "property": "C89",
   "status": "partial",
   "theorems": [
    "C89_put",
    "C89_removed",
    "C89_new",
    "C89_appended",
    "C89_metadata",
    "C89_metadata_removed",
    "C89_present",
    "C89_listing",
    "C89_outcome",
    "C89_order",
    "C89_undo",
    "C89_undo_refuted",
    "C89_csv_put",
    "C89_csv_removed",
    "C89_csv_kept",
    "C89_csv_building_refuted"
   ],
   "note": "Refuted parts: C89_undo_refuted (empty groups stay and are listed), C89_csv_building_refuted (metadata stay). Operations that raise change nothing; crashes in the middle of an operation are not modelled."
  },
  {
   "property": "C90",
   "status": "partial",
   "theorems": [
    "C90_readings",
    "C90_ordered",
    "C90_succeeds",
    "C90_missing",
    "C90_entries",
    "C90_few_plugs_refuted",
    "C90_documented_name_refuted"
   ],
   "note": "Refuted parts: C90_few_plugs_refuted (fewer than three plug folders), C90_documented_name_refuted (the module documentation says <i>_plug_csv, the code looks for plugs). C90_entries: what must hold of every entry for success. Metadata conversion is not modelled."
  },
  {
   "property": "C91",
   "status": "partial",
   "theorems": [
    "C91_estimates",
    "C91_output",
    "C91_metadata",
    "C91_untrained",
    "C91_across",
    "C91_across_metadata",
    "C91_across_sections_refuted",
    "C91_absent_refuted",
    "C91_gap_refuted",
    "C91_single_refuted"
   ],
   "note": "Refuted parts: C91_across_sections_refuted, C91_absent_refuted, C91_gap_refuted, C91_single_refuted. hmmlearn is an oracle: its state sequence is an argument."
  },
  {
   "property": "C92",
   "status": "partial",
   "theorems": [
    "C92_sections",
    "C92_value",
    "C92_unread",
    "C92_types_refuted",
    "C92_perfect",
    "C92_difference",
    "C92_group"
   ],
   "note": "Refuted part: C92_types_refuted. Submeters that are MeterGroups are not covered by C92_group; the body of the loop for these is an argument."
  },
  {
   "property": "C93",
   "status": "partial",
   "theorems": [
    "C93_ideal",
    "C93_ideal_rows",
    "C93_ideal_bad_name_refuted",
    "C93_ideal_documented_folder_refuted",
    "C93_ideal_times_refuted",
    "C93_ideal_lost_refuted",
    "C93_hipe",
    "C93_hipe_missing",
    "C93_hipe_feed_in_refuted",
    "C93_hipe_second_refuted"
   ],
   "note": "Refuted parts: C93_ideal_bad_name_refuted, C93_ideal_documented_folder_refuted, C93_ideal_times_refuted, C93_ideal_lost_refuted, C93_hipe_feed_in_refuted, C93_hipe_second_refuted. Reading csv text and the metadata are not modelled."
  },
  {
   "property": "C94",
   "status": "partial",
   "theorems": [
    "C94_appliance",
    "C94_pretty_appliance",
    "C94_pretty_appliance_refuted",
    "C94_meter",
    "C94_pretty_meter",
    "C94_same_refuted",
    "C94_all_types_refuted",
    "C94_empty_refuted",
    "C94_group",
    "C94_order_refuted",
    "C94_labels",
    "C94_fails",
    "C94_original"
   ],
   "note": "Refuted parts: C94_pretty_appliance_refuted, C94_same_refuted, C94_all_types_refuted, C94_empty_refuted, C94_order_refuted."
  },
  {
   "property": "C95",
   "status": "partial",
   "theorems": [
    "C95_counts",
    "C95_uptime",
    "C95_always",
    "C95_average",
    "C95_works",
    "C95_dropout",
    "C95_dropout_nested",
    "C95_dropout_nan",
    "C95_fails",
    "C95_disabled",
    "C95_other_mains_refuted",
    "C95_number_refuted"
   ],
   "note": "Partial: every entry is determined for meters with at least two complete readings. Refuted: with several mains meters the uptime is that of the first only (C95_other_mains_refuted); a group inside the group counts as one meter, and disabled mains meters are counted (C95_number_refuted). The correlation and the proportion of energy submetered are given by their outcome (see C38, C56, C84), the dropout rate of a single meter too (C17, C83)."
  },
  {
   "property": "C96",
   "status": "partial",
   "theorems": [
    "C96_singles_partial",
    "C96_sections_partial",
    "C96_whole",
    "C96_runs_partial",
    "C96_repeat_refuted",
    "C96_order_refuted",
    "C96_chunk_refuted",
    "C96_window_refuted"
   ],
   "note": "Partial: proved for histories of requests for one section each, the sections being the same or without a common instant and inside the window, and for the whole meter. Refuted in general: a request for two sections that follow each other raises IndexError the second time (C96_repeat_refuted); a run over two sections is cut in two if the first was asked for before (C96_order_refuted); the period of a chunk of a longer section is answered with its sections twice (C96_chunk_refuted), and so is the part of a section that lies in the window (C96_window_refuted)."
  },
  {
   "property": "C97",
   "status": "partial",
   "theorems": [
    "C97_history_partial",
    "C97_energy_partial",
    "C97_good_partial",
    "C97_put_refuted",
    "C97_put_good_refuted",
    "C97_section_refuted"
   ],
   "note": "Partial: proved for questions about the whole meter, readings appended in time order, and replacements followed by clear_cache() before the next question. Refuted otherwise: a replacement with the same first and last times gives the old energy (C97_put_refuted) and the old good sections (C97_put_good_refuted); a named section into which readings are appended keeps its old energy (C97_section_refuted)."
  },
  {
   "property": "C98",
   "status": "partial",
   "theorems": [
    "C98_import_partial",
    "C98_empty_home",
    "C98_units_refuted",
    "C98_times_refuted",
    "C98_order_refuted",
    "C98_stale_times_refuted",
    "C98_short_file"
   ],
   "note": "Partial: proved that exactly the mains and the meters are stored, numbered in the order in which they appear, with all their readings in the rows of the first file of each year. Refuted: kilowatts are stored as watts (C98_units_refuted); readings of other files get the times of the rows of the first file, and rows beyond its end are lost (C98_times_refuted); the years are not put in order (C98_order_refuted); a year without times gets those of the year before (C98_stale_times_refuted). A home without half-hourly data ends the import with KeyError (C98_empty_home)."
  },
  {
   "property": "C99",
   "status": "partial",
   "theorems": [
    "C99_errors_partial",
    "C99_named_partial",
    "C99_row_order",
    "C99_empty",
    "C99_absent_refuted",
    "C99_missing_refuted",
    "C99_order_refuted",
    "C99_merged_refuted",
    "C99_repeats",
    "C99_suffix_refuted"
   ],
   "note": "Partial: proved when the predictions have the columns of the ground truth in its order. Refuted: columns are paired by position, so another order gives other errors (C99_order_refuted); an appliance absent from the predictions raises IndexError (C99_absent_refuted); one whose predictions are all missing is listed with NaN (C99_missing_refuted); a column without a label makes meters with one label overwrite each other (C99_merged_refuted); what is added to a shared label is the text of two bound methods, not building and instance (C99_suffix_refuted)."
  },
  {
   "property": "C100",
   "status": "partial",
   "theorems": [
    "C100_co_unharmed",
    "C100_fhmm_unharmed",
    "C100_co_kept_partial",
    "C100_fhmm_kept_partial",
    "C100_hart_kept",
    "C100_window_refuted",
    "C100_truncated_refuted",
    "C100_other_store_refuted",
    "C100_fhmm_other_store_refuted",
    "C100_not_opened_refuted",
    "C100_untrained_refuted"
   ],
   "note": "Proved: with distinct meters on HDF files exporting leaves CO and FHMM unchanged whatever happens to the file, and importing gives the same states, learnt models, combinations and meters on the same files; a trained Hart85 comes back whole. Refuted: windows of stores are lost; an export that stops destroys the earlier file; one meter that is not on an HDF file makes exporting raise and leaves the meters before it without stores, for good, and FHMM without its meters; importing with a file missing leaves a mixture of two models; an untrained Hart85 is exported and wipes the model of the one that imports it."
  },
  {
   "property": "C101",
   "status": "partial",
   "theorems": [
    "C101_selects",
    "C101_load",
    "C101_works",
    "C101_end_refuted",
    "C101_in_order",
    "C101_partition",
    "C101_length",
    "C101_day_refuted",
    "C101_irregular_refuted"
   ],
   "note": "Proved for zones whose changes are further apart than they set clocks back (all in practice): the window is exactly the instants with local times asked for, loading delivers exactly those readings (two or more, see C09), adjacent windows partition, ends are in order; the exact length. Refuted: ends that clocks skip or show twice raise; days of 23 and 25 hours; for other zones a window can end before it starts."
  },
  {
   "property": "C102",
   "status": "partial",
   "theorems": [
    "C102_readings_partial",
    "C102_stretches",
    "C102_within",
    "C102_metadata_partial",
    "C102_last_stretch",
    "C102_meters_lost_refuted",
    "C102_mixed_refuted",
    "C102_twice_refuted",
    "C102_last_refuted",
    "C102_active_refuted",
    "C102_works",
    "C102_everything_refuted",
    "C102_half_open_refuted",
    "C102_hour_refuted",
    "C102_unknown_column",
    "C102_known_columns"
   ],
   "note": "Proved if each stretch of ten days with a row has readings in the same columns and one view contains the table's name: exactly the readings, metadata (with a row in the last stretch), and in general what every meter holds; when it succeeds. Refuted: no periods, or an end left out, raises TypeError; meters are numbered per stretch, so one can hold two appliances; metadata are those of the last stretch only; two views whose names contain the table's double the readings; the last reading is never stored; other tables than real power are stored as active power; a reading in the hour shown twice raises."
  },
  {
   "property": "C103",
   "status": "partial",
   "theorems": [
    "C103_runs",
    "C103_meter",
    "C103_raises",
    "C103_dry_run",
    "C103_answers",
    "C103_kept",
    "C103_other_statistics",
    "C103_promises_partial",
    "C103_clip_refuted",
    "C103_energy_refuted",
    "C103_chained_refuted",
    "C103_no_chunk_refuted"
   ],
   "note": "Proved: exactly which chains run and which node stops the others with which exception; what the dry run holds; the answers and everything else in the metadata after a run. Refuted: a node other than Apply downstream of a DropoutRate node always raises KeyError, although its requirements are met; clipping is promised and never recorded; the energy is promised among the statistics and put elsewhere; without a chunk the metadata of a chain with a DropoutRate node cannot be read."
  },
  {
   "property": "C104",
   "status": "partial",
   "theorems": [
    "C104_buildings_partial",
    "C104_errors",
    "C104_columns",
    "C104_empty",
    "C104_order",
    "C104_description_refuted",
    "C104_twice_refuted",
    "C104_city_refuted"
   ],
   "note": "Proved if no two eligible lines have the same number: exactly the eligible buildings are converted, in the order of their numbers (composed with the conversion of C76), the files of metadata are exactly the static ones and one per building with readings, exactly when it fails and with which error, and that the order of the lines does not matter. Refuted: without a line of descriptions the first building is lost; a building listed twice has its readings and its place twice; a building without readings and without a city stops the conversion."
  },
  {
   "property": "C105",
   "status": "partial",
   "theorems": [
    "C105_history_partial",
    "C105_quiet",
    "C105_stored",
    "C105_no_error",
    "C105_twice",
    "C105_others",
    "C105_grouping",
    "C105_disabled_refuted",
    "C105_dataset_refuted"
   ],
   "note": "Proved: in every history what is cached for a meter in use is what was stored for its building and number since the last clear_cache() of it, of a group around it at any depth, or of its data set; nothing else in the cache changes; no errors; to clear twice is to clear once; grouping and order do not matter. Refuted: disabled meters keep their cached statistics; a meter of another data set with the same building and number loses them. Left out: the replacement of a cached table with other columns (see C22)."
  },
  {
   "property": "C106",
   "status": "partial",
   "theorems": [
    "C106_several_partial",
    "C106_one_partial",
    "C106_nested",
    "C106_no_mains",
    "C106_buildings",
    "C106_one_refuted",
    "C106_perfect_refuted",
    "C106_last_refuted"
   ],
   "note": "Proved, for meters read at a common regular period: with several mains meters it is Pearson's coefficient over all readings but the last; with one mains meter it is that times a stated factor; meters further down do not matter; errors without mains and with several buildings. Refuted: with one mains meter the factor is always below 1, so that even a mains equal to the sum of its submeters at all times has a coefficient below 1, because a group never yields its last reading and a meter does. Left out: meters with gaps or different periods (C35, C38 cover their parts)."
  },
  {
   "property": "C107",
   "status": "partial",
   "theorems": [
    "C107_display_partial",
    "C107_exists",
    "C107_string",
    "C107_links",
    "C107_script_refuted",
    "C107_less_refuted",
    "C107_comma_refuted",
    "C107_alike_refuted"
   ],
   "note": "Proved, for metadata without <, >, & and double quotes: a reader of the page (tags, nesting, text, written in HtmlSpec.v) gets exactly the specified document and no other; visible text and links of strings. Refuted: nothing is escaped, so that scripts in metadata get into the page and a single < destroys its structure; a comma after a URL is part of the link; an empty list and an empty dictionary look alike."
  },
  {
   "property": "C108",
   "status": "partial",
   "theorems": [
    "C108_still",
    "C108_past_partial",
    "C108_past",
    "C108_look_refuted",
    "C108_one_more_refuted",
    "C108_window",
    "C108_window_refuted"
   ],
   "note": "Proved: nothing changes, the result is that of load() of the table; rows appended outside the window and sections leave rows, time frames and errors as they were, and everything if no look-ahead is asked for; the window is read once for each section. Refuted: rows appended after a section show up in the look-ahead; without sections the last of several chunks has exactly the first of the appended rows; a window set in the meantime applies to the next section."
  },
  {
   "property": "C109",
   "status": "partial",
   "theorems": [
    "C109_heading",
    "C109_blocks",
    "C109_errors",
    "C109_no_header",
    "C109_special",
    "C109_break_refuted",
    "C109_pandas_refuted",
    "C109_trimmed"
   ],
   "note": "Proved: readings, headers and order for files that begin with a header; errors are those of reading a block, and AttributeError for a file that begins otherwise; the special cases of two files. Refuted: with pandas 2 every file is refused (error_bad_lines); one of the special lines is recognised only at the end of a file. Not modelled: the rest of convert_greend (joining the blocks, duplicates, the store)."
  },
  {
   "property": "C110",
   "status": "partial",
   "theorems": [
    "C110_tables_partial",
    "C110_empty",
    "C110_lost_refuted",
    "C110_order_refuted"
   ],
   "note": "Proved: one table for each column, numbered from 1 on, with all times in strict order and only values of that column at that time; every reading if no time occurs twice. Refuted: readings of the same time in two blocks are not joined, all but one row are lost; the number of a meter depends on the order of the blocks, which without use_mp is that of the directory. Not modelled: the loop over houses, the store and the metadata."
  },
  {
   "property": "C111",
   "status": "partial",
   "theorems": [
    "C111_complete_partial",
    "C111_stored",
    "C111_last_refuted",
    "C111_nothing",
    "C111_pandas_refuted"
   ],
   "note": "Proved: if all files of a meter are there or none, exactly the meters with files are stored, in order, each with its three attributes, a file below the path itself before one below iiitd; RuntimeError without any file. Refuted: a meter is stored if and only if the file of its current is there, so that power and energy are left out silently otherwise; with pandas 2 reading any file raises TypeError."
  },
  {
   "property": "C112",
   "status": "partial",
   "theorems": [
    "C112_filled",
    "C112_check",
    "C112_gap_refuted",
    "C112_outside_refuted"
   ],
   "note": "Proved: times, columns, kept readings and the values filled in; the check for missing values fails exactly if a quantity other than power has no reading at all. Refuted: a power that was never recorded cannot be told from one that was zero; readings at other times are lost. Not modelled: reading the files and resampling in convert_iawe."
  }
 ]
}