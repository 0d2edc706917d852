# Formal model of nilmtk in Rocq/Coq: design

The source under study is `/repo` (nilmtk, Python). It was read as text and
never executed. Every definition of the model cites the file and lines it
mirrors. Theorems are about the model; the only tie to the code is the reading.

## Layout

`rocq/theories/` (logical prefix `Verif`):

* `Base.v` – the error type (Python exceptions as values) and list lemmas.
* `<Topic>Model.v` – executable Gallina mirror of the Python, branch by branch.
  No proofs in these files.
* `<Topic>Spec.v` (or a header section of the property file) – the small
  independent specification used to state the properties.
* `<Topic>Proofs.v` – lemmas.
* `Props<Topic>.v` – only the property theorems (`exact lemma.`), each followed
  by `Print Assumptions`, and the `Example`s showing that hypotheses are met.

## Modelling conventions

* Timestamps, durations: `Z` (nanoseconds since the epoch; time zones are a
  display matter for an absolute pandas `Timestamp`). `None`: `option`.
* Measured values: `Z` when only `+,-,*,min,max,<=` are used (read as fixed
  point units), `Q`/`R` when division or square root is used. Floating point
  rounding is not modelled. `NaN`: `option`.
* Exceptions: `res A := Ok a | Err e`.
* A generator is the list of what it yields (and an error if it raises).
* Objects that are mutated are records; methods return the new record.
* External libraries (pandas, numpy, sklearn, hmmlearn, PyTables) are replaced
  by the list operation they perform at that call; where the result is not
  determined (k-means, HMM fitting), it is a universally quantified argument.

## Plan per property

| id | model | proof method |
|----|-------|--------------|
| C01 | TimeFrame record, setters, op histories | invariant by induction over ops; refutation with `enabled` |
| C02, C03 | `intersection` | membership characterisation by case analysis |
| C04 | `split` as fuelled loop, fuel excluded | induction on remaining duration |
| C05 | `merge_timeframes` fold | invariant over the fold |
| C06 | `to_dict`/`from_dict` | case analysis, refutation for empty |
| C07, C08 | TimeFrameGroup as list | list induction |
| C09, C10, C11 | HDF `load` on row lists with index arithmetic | firstn/skipn arithmetic, induction over chunks |
| C12 | CSV `load` | induction over chunks |
| C13, C14 | `get_good_sections`, `combined` | relation to recursive run decomposition |
| C15, C16 | `get_total_energy` | induction over shared-boundary chunk lists |
| C17, C18 | `get_dropout_rate`, unify | rational arithmetic; refutation |
| C19-C21 | Results as sorted list of rows | invariant over op histories; permutation lemma |
| C22, C23 | stats cache state machine | refinement to recomputation under guard; refutations |
| C24 | requirement trees as inductive type | structural induction |
| C25 | clip | pointwise |
| C26, C27 | column selection | finite case analysis + list lemmas |
| C28 | key parsing on strings | induction over strings |
| C29, C30 | find_nearest, cartesian product | argsort/searchsorted facts |
| C31 | histogram | additivity of counting |
| C32 | get_activations | run decomposition |
| C33 | Mean | fold invariant; refutation by truncation |
| C34 | combine_chunks | fold over meters, permutation invariance |
| C35-C37 | metergroup list operations | list lemmas |
| C38 | correlation | reals, Cauchy-Schwarz |
| C39, C45 | Hart85 pairing / power assignment | loop invariants |
| C40 | find_steady_states | loop invariant |
| C41 | FHMM | mixed-radix arithmetic |
| C42 | API.dropna | list filtering |
| C43 | metrics, losses | inequalities |
| C44 | matches | list induction |
| C46 | `__eq__`, `__lt__`, `__hash__` | case analysis |
| C47 | `_nrows`, `get_timeframe` on row lists | counting lemmas |
| C48, C49 | `API.predict`, `train_chunk_wise` with any classifier | list induction over chunks |
| C50 | `FHMMExact` with hmmlearn as oracle | induction over appliances |
| C51 | `safe_resample` on a time grid | induction over bins |
| C52 | `power_series_all_data` | invariant over chunks |
| C53 | `MeterGroup.import_metadata` on metadata lists | induction over appliances and meters |
| C54, C55, C56 | group statistics | fold over meters |
| C57 | `dataframe_of_meters` as rounds over generators | induction over rounds |
| C58 | upstream/downstream over a wiring map | well-founded induction over the tree |
| C59 | `groupby`, dominant appliances | list induction |
| C60, C61 | stores as maps from keys to tables, conversion | induction over keys and chunks |
| C62 | joint experiments as state machines | induction over houses |
| C63 | `switch_times` | list induction |
| C64 | on-power thresholds, `when_on` | case analysis, list lemmas |
| C65 | activity scripts | induction over activations |
| C66 | `__getitem__` on key types | structural induction over nested groups |
| C67 | clustering with KMeans/MeanShift as oracles | list lemmas |
| C68 | interleavings of generators and `set_window` | induction over histories |
| C69 | pairing of submeters | list induction |
| C70 | legacy CO writing to a store | invariant over histories and failure points |
| C71 | opening a data set | sorting lemmas on key strings |
| C72 | Hart85 train and disaggregate | composition of C39, C40, C45 |
| C73 | raw converters over directory trees | induction over houses and channels |
| C74 | uptime and average energy per period | composition of C09, C14, C15 |
| C75 | lazy generators over shared lists, nodes and options | invariant on programs: protected nodes are not reached by other generators |
| C76 | Dataport converter: chunks, frames, tables, metadata, cache | loop invariants over chunks, files and buildings; refutations by computed conversions |
| C77 | experiment loop of the API over arbitrary classifiers | induction over epochs, houses and chunks; Hart85 and CO as instances |
| C78 | Mean: JSON text, files, crash points | automaton for json.loads; round trip by induction over characters, digits and members; prefixes by an invariant of the automaton |
| C79 | HES converter: loops over files, chunks, houses, appliance codes; store with append; metadata loop | invariant of the loops over the list of writes so far; closed form of each table; refutations by witness and for all inputs |
| C80 | the registry of meter devices shared by a process; opening data sets with failures; sample period, columns, fill limit and good sections of a meter | induction on the history of openings: the last description counts; refutation for all pairs of data sets |
| C81 | the two store formats compared: all data, covered period (CSV get_timeframe), total energy | both loads characterised by the visible rows; chunks of a CSV load are sorted and disjoint; energy of pieces at most that of the whole; witnesses for the differences |
| C82 | total_energy, good_sections and dropout_rate of a meter without sections: the default section (frame of the table inside the window, end included) | the default section determines the rows within the closed window; chunks of a bounded section (C10), energies and runs combined over chunks; cutting a sorted series at an instant; witnesses for the differences |
| C83 | dropout_rate() with gaps ignored and total_energy over good_sections(): good sections computed by the pipeline, loaded again as sections of the HDF store, statistics combined | good sections are the frames of the long runs (C82_good); each frame lies in the window, so its section delivers the run without its last reading (last run: with it); frames ascend, hence no overlap; sums over delivered pieces |
| C84 | proportion_of_energy, proportion_of_energy_submetered and proportion_of_upstream between single-column power meters of an HDF store, over the good sections of the mains | composition of C83 and C56: the frames of the mains deliver the same pieces of every meter with the same clock; the energy of the pieces is a weighted sum of the readings whose weights depend on the clock only, and so is monotone and additive in the readings |
| C85 | tables and summaries of a group: pairwise, pairwise_correlation, call_method_on_all_meters, proportion_of_upstream_total_per_meter, sample_period, available_ac_types, available_physical_quantities, sort_meters | invariant over the two loops of pairwise; induction over nested groups; insertion sort |
| C86 | raw REDD and UK-DALE files to total energy | composition of C73 and C82: the sorted rows with distinct times are the only time order; constant loads by induction |
| C87 | REFIT and DRED converters | the order of lines is a permutation given by sort_index; induction over houses and columns; failure as a prefix |
| C88 | total energy in floating point | a rounding follows each operation; any binary tree of additions; error bound by induction over the tree; whole numbers stay exact; Flocq shows that double precision is such a rounding |
| C89 | removal of keys from HDF5 files and CSV stores; histories of put, append, remove and save_metadata (RemoveModel, on the stores of ConvModel) | what is seen at a path after one operation as a function of what was seen before, then induction over the history; files of a CSV store the same way with path prefixes |
| C90 | the ECO converter over directory trees (EcoModel) | what each file, subfolder and folder adds to each table, as a function; induction over the loops; membership and order of the concatenation; an invariant on the kinds of tables and the two flags for success |
| C91 | the legacy FHMM that writes to a store, one building or several (LfhModel, with the store and metadata of LcoModel and the decoding of FhmmModel) | decoding lemmas of C41 for a chunk; an invariant on tables over the columns, the chunks and the buildings; metadata as in C70 |
| C92 | total_energy over named sections and error_in_assigned_energy (AssignModel, with the loads and energies of ShareModel and the pairing of PairModel) | what one section loads from the HDF store (cases of the intersection with the window); ascending frames so that results can be appended; sums of joules; the good sections of C83 seen by a meter with other times; weighted sums for the bound |
| C93 | importing IDEAL and HIPE: directory trees, names of files, keys, tables | names are parsed back from their written form; the store is exactly the set of tables of the files, by induction over the files written |
| C94 | labels of appliances, meters, groups; repr, case, joining | repr is read back by a decoder, labels are cut at their delimiters, case is removed by lowering; lists by induction |
| C95 | summary of a group: counts, time frame, uptime, average energy, sample periods, dropout rates, failures | induction on the tree of meters; the uptime of C74 and the span of C54; bounds of the covered time by the span |
| C96 | good sections served with the cache: import, export, the change made by simple(), histories | invariant: every cached group of lines is what one computation of its section found; keys distinct after the double sort; combined() twice on one row |
| C97 | total energy and good sections of a meter that is appended to, replaced and cleared, with both caches | invariant: what is cached for the span of the table is what would be computed; appending moves the end beyond every cached end |
| C98 | importing SMART: file selection, columns dropped, join by row number, concatenation of years, channels | joins of tables with distinct columns append aligned columns; invariant on the concatenated table: names in order of appearance, each column the concatenation over the years |
| C99 | compute_rmse: pairing of columns, alignment of rows, the error, labels and their suffixes, the final dictionary | the loop returns one entry per column; counting invariant for shared labels; injectivity of the text of a meter in building and instance |
| C100 | Heap of meters with a store attribute, exporting with the swap of stores for file names and its undoing, a disk with refused and stopped writes, importing and reopening, for the legacy CO, FHMM and Hart85 | Invariants of the swap and of its undoing over the list of meters, pointwise equality of heaps; pickle as a pair of functions that undo each other; computed counterexamples |
| C101 | Time zones as first offset and list of changes, localising a local time, `set_window` in local time and loading under it | Starts and ends of the stretches between changes never decrease, so that a time shown once splits all instants; composed with C09 |
| C102 | The Dataport database as views and spans, the stretches of ten days, the queries by clock time, the conversion of each stretch with its numbering of columns and its metadata, views and buildings | Stretches by induction on their number, queries by clock time equal to stretches of instants (from C101), invariants of the loops over columns, stretches, views and buildings; failures universally |
| C103 | Chains of nodes over the metadata of a meter: dry run, check, reading of metadata up to the first chunk, results as dictionaries, their merging into metadata with the outcome for two plain values left open | Merging by induction on the metadata tree, with a table of the sorts of entries; dry run and metadata of a chain by induction on the chain; failures universally |
| C104 | metadata.csv as names of columns and lines with optional fields, the selection and sort of buildings, places, the directory of metadata, composed with the conversion of C76; the sort is any sort by number | Strictly increasing numbers from the sort and distinctness, induction over the buildings with the invariant of C76, names of files by injectivity of numerals; witnesses for the refuted parts |
| C105 | clear_cache of meters, nested groups and data sets on the cache as an HDF5 tree (C89), with the keys of C23, in histories of stored statistics and clearings | What can be seen at each path after clearing, by induction on nested groups; keys by injectivity of numerals; histories by induction; witnesses for the refuted parts |
| C106 | correlation_of_sum_of_submeters_with_mains, composed of the wiring (C58), the loading of groups (C35, C36) and of meters, and the correlation (C38), on regular readings | Resampling and cutting of a regular grid by induction on its length, the sums of the groups, then the correlation of a longer with a shorter series in closed form; the factor is below 1 since deviations grow |
| C107 | dict_to_html on nested values, with the substitution of URLs as a left-to-right scan; the page is read back by a small reader of HTML in the specification | Each piece of the page adds its piece of the document to whatever is open (induction over values with nested lists); the cut of a string into URLs is unique; general counterexamples for markup |
| C108 | LiveModel.v: the loop of HDFDataStore.load with the table and the window as functions of the number of chunks delivered | induction on the starts of chunks; coordinates of a section are not changed by rows outside it; the last start found from the ceiling of the division |
| C109 | GreendModel.v: _get_blocks line by line, reading a block is an argument | induction on the lines with the block that is open; one line in terms of its header |
| C110 | GHouseModel.v: pd.concat, sort_index and duplicated on frames as lists; sorting is an argument | columns by induction on the blocks; rows traced back to their block; strict order from sorting and removing repeated times |
| C111 | CombedModel.v: the loops of convert_combed over meters and attributes with the flag exists; files, reading and joining are arguments | induction on attributes and meters; the flag is that of the last attribute |
| C112 | IaweModel.v: reindex, fillna and the check on columns over an index; the median is an argument | lookup in an index without repetitions; induction on lists |

All properties are expressible in a model; none is marked not applicable.

## Outcome per property

The property files hold the theorems; the model files listed are the ones they import.

| id | status | theorems | property file | model files |
|----|----|----|----|----|
| C01 | partial | 5 (1 refuted) | PropsTimeFrame | TimeFrameModel |
| C02 | proved | 4 (0 refuted) | PropsTimeFrame | TimeFrameModel |
| C03 | partial | 3 (2 refuted) | PropsTimeFrame | TimeFrameModel |
| C04 | partial | 6 (2 refuted) | PropsTimeFrame | TimeFrameModel |
| C05 | partial | 3 (1 refuted) | PropsTimeFrame | TimeFrameModel |
| C06 | partial | 2 (1 refuted) | PropsTimeFrame | TimeFrameModel |
| C07 | proved | 4 (0 refuted) | PropsTimeFrame | TimeFrameModel |
| C08 | proved | 2 (0 refuted) | PropsTimeFrame | TimeFrameModel |
| C09 | partial | 5 (2 refuted) | PropsStore | TimeFrameModel, StoreModel |
| C10 | proved | 1 (0 refuted) | PropsStore | TimeFrameModel, StoreModel |
| C11 | partial | 2 (1 refuted) | PropsStore | TimeFrameModel, StoreModel |
| C12 | partial | 4 (1 refuted) | PropsStore | TimeFrameModel, StoreModel |
| C13 | partial | 6 (0 refuted) | PropsGoodSections | TimeFrameModel, ResultsModel, StoreModel, GoodSectionsModel |
| C14 | partial | 8 (5 refuted) | PropsGoodSections | TimeFrameModel, ResultsModel, StoreModel, GoodSectionsModel |
| C15 | partial | 8 (1 refuted) | PropsEnergy | TimeFrameModel, ResultsModel, StoreModel, EnergyModel |
| C16 | partial | 5 (2 refuted) | PropsEnergy | TimeFrameModel, ResultsModel, StoreModel, EnergyModel |
| C17 | partial | 6 (1 refuted) | PropsResults | TimeFrameModel, ResultsModel |
| C18 | partial | 4 (1 refuted) | PropsResults | TimeFrameModel, ResultsModel |
| C19 | partial | 3 (1 refuted) | PropsResults | TimeFrameModel, ResultsModel |
| C20 | proved | 1 (0 refuted) | PropsResults | TimeFrameModel, ResultsModel |
| C21 | partial | 6 (2 refuted) | PropsResults | TimeFrameModel, ResultsModel |
| C22 | partial | 8 (4 refuted) | PropsCache | TimeFrameModel, StoreModel, ResultsModel, EnergyModel, KeyModel, CacheModel |
| C23 | partial | 4 (2 refuted) | PropsCache | TimeFrameModel, StoreModel, ResultsModel, EnergyModel, KeyModel, CacheModel |
| C24 | proved | 3 (0 refuted) | PropsPipeline | TimeFrameModel, StoreModel, EnergyModel, PipelineModel |
| C25 | partial | 8 (1 refuted) | PropsPipeline | TimeFrameModel, StoreModel, EnergyModel, PipelineModel |
| C26 | proved | 2 (0 refuted) | PropsPipeline | TimeFrameModel, StoreModel, EnergyModel, PipelineModel |
| C27 | proved | 7 (1 refuted) | PropsColumns | EnergyModel, PipelineModel, ColumnsModel |
| C28 | partial | 10 (3 refuted) | PropsKey | KeyModel |
| C29 | proved | 3 (0 refuted) | PropsNearest | NearestModel |
| C30 | proved | 2 (0 refuted) | PropsNearest | NearestModel |
| C31 | partial | 11 (1 refuted) | PropsHistogram | HistogramModel |
| C32 | partial | 7 (4 refuted) | PropsActivations | ActivationsModel |
| C33 | partial | 6 (2 refuted) | PropsNearest | NearestModel |
| C34 | partial | 13 (6 refuted) | PropsGLoad | TopModel, EnergyModel, PipelineModel, ColumnsModel, ResampleModel, GLoadModel |
| C35 | partial | 12 (3 refuted) | PropsGroup | GroupModel, MatchModel |
| C36 | partial | 5 (1 refuted) | PropsSplit | SplitModel |
| C37 | partial | 7 (2 refuted) | PropsTop | TopModel |
| C38 | partial | 9 (3 refuted) | PropsCorr | CorrModel |
| C39 | proved | 4 (2 refuted) | PropsHart | HartModel |
| C40 | partial | 8 (3 refuted) | PropsSteady | SteadyModel |
| C41 | partial | 7 (1 refuted) | PropsFhmm | FhmmModel |
| C42 | proved | 3 (1 refuted) | PropsApi | ApiModel |
| C43 | partial | 25 (8 refuted) | PropsMetrics | TopModel, ResampleModel, MetricsModel |
| C44 | proved | 13 (4 refuted) | PropsMatch | MatchModel |
| C45 | partial | 7 (2 refuted) | PropsHart | HartModel |
| C46 | partial | 5 (1 refuted) | PropsTimeFrame | TimeFrameModel |
| C47 | partial | 3 (1 refuted) | PropsStore | TimeFrameModel, StoreModel |
| C48 | partial | 3 (1 refuted) | PropsApi | ApiModel |
| C49 | partial | 2 (1 refuted) | PropsApi | ApiModel |
| C50 | partial | 5 (2 refuted) | PropsFhmm | FhmmModel |
| C51 | proved | 3 (0 refuted) | PropsFill | TopModel, ResampleModel |
| C52 | partial | 5 (2 refuted) | PropsFill | TopModel, ResampleModel |
| C53 | partial | 8 (3 refuted) | PropsImport | GroupModel, ImportModel |
| C54 | partial | 6 (2 refuted) | PropsGStats | TimeFrameModel, EnergyModel, TopModel, StoreModel, GStatsModel |
| C55 | partial | 7 (2 refuted) | PropsGStats | TimeFrameModel, EnergyModel, TopModel, StoreModel, GStatsModel |
| C56 | partial | 8 (2 refuted) | PropsGStats | TimeFrameModel, EnergyModel, TopModel, StoreModel, GStatsModel |
| C57 | partial | 6 (2 refuted) | PropsDf | DfModel |
| C58 | partial | 13 (3 refuted) | PropsWiring | WiringModel |
| C59 | partial | 9 (4 refuted) | PropsBy | MatchModel, ByModel |
| C60 | partial | 7 (4 refuted) | PropsConv | TimeFrameModel, StoreModel, KeyModel, ConvModel |
| C61 | partial | 10 (2 refuted) | PropsConv | TimeFrameModel, StoreModel, KeyModel, ConvModel |
| C62 | proved | 7 (3 refuted) | PropsExp | ApiModel, ExpModel |
| C63 | proved | 7 (2 refuted) | PropsSwitch | SwitchModel |
| C64 | proved | 11 (2 refuted) | PropsOn | ActivationsModel, OnModel |
| C65 | partial | 7 (2 refuted) | PropsScript | ActivationsModel, ScriptModel |
| C66 | partial | 22 (5 refuted) | PropsItem | ItemModel |
| C67 | partial | 9 (2 refuted) | PropsCluster | ClusterModel |
| C68 | partial | 10 (2 refuted) | PropsSession | TimeFrameModel, StoreModel, SessionModel |
| C69 | partial | 7 (2 refuted) | PropsPair | ItemModel, PairModel |
| C70 | partial | 14 (6 refuted) | PropsLco | TimeFrameModel, NearestModel, LcoModel |
| C71 | partial | 8 (3 refuted) | PropsOpen | OpenModel |
| C72 | partial | 11 (8 refuted) | PropsHartRun | HartModel, SteadyModel, ClusterModel, HartRunModel |
| C73 | partial | 10 (5 refuted) | PropsRaw | RawModel |
| C74 | partial | 12 (3 refuted) | PropsAvg | TimeFrameModel, StoreModel, GoodSectionsModel, EnergyModel, AvgModel |
| C75 | partial | 8 (5 refuted) | PropsPrep | PrepModel |
| C76 | partial | 11 (4 refuted) | PropsDataport | DataportModel |
| C77 | partial | 7 (4 refuted) | PropsTrial | HartModel, HartRunModel, TrialModel |
| C78 | partial | 7 (2 refuted) | PropsPersist | NearestModel, PersistModel |
| C79 | partial | 6 (3 refuted) | PropsHes | HesModel |
| C80 | partial | 6 (2 refuted) | PropsDevice | TimeFrameModel, StoreModel, ResultsModel, GoodSectionsModel, DeviceModel |
| C81 | partial | 7 (3 refuted) | PropsFormats | TimeFrameModel, ResultsModel, StoreModel, EnergyModel, FormatsModel |
| C82 | partial | 12 (4 refuted) | PropsWhole | TimeFrameModel, StoreModel, ResultsModel, GoodSectionsModel, EnergyModel, WholeModel |
| C83 | partial | 9 (3 refuted) | PropsGaps | TimeFrameModel, StoreModel, ResultsModel, GoodSectionsModel, EnergyModel, WholeModel, GapsModel |
| C84 | partial | 10 (5 refuted) | PropsShare | TimeFrameModel, StoreModel, EnergyModel, TopModel, GStatsModel, ShareModel |
| C85 | partial | 17 (4 refuted) | PropsTable | PipelineModel, EnergyModel, ColumnsModel, TopModel, CorrModel, TableModel |
| C86 | partial | 7 (1 refuted) | PropsPath | TimeFrameModel, StoreModel, EnergyModel, WholeModel, RawModel, PathModel |
| C87 | partial | 8 (1 refuted) | PropsWide | RawModel, WideModel |
| C88 | partial | 12 (1 refuted) | PropsRound | TimeFrameModel, ResultsModel, StoreModel, EnergyModel, RoundModel |
| C89 | partial | 16 (2 refuted) | PropsRemove | TimeFrameModel, StoreModel, KeyModel, ConvModel, RemoveModel |
| C90 | partial | 7 (2 refuted) | PropsEco | EcoModel |
| C91 | partial | 10 (4 refuted) | PropsLfh | TimeFrameModel, LcoModel, LfhModel |
| C92 | partial | 7 (1 refuted) | PropsAssign | TimeFrameModel, StoreModel, EnergyModel, TopModel, GStatsModel, ShareModel, ItemModel, PairModel, AssignModel |
| C93 | partial | 10 (6 refuted) | PropsIdeal | IdealModel |
| C94 | partial | 13 (5 refuted) | PropsLabel | LabelModel |
| C95 | partial | 12 (2 refuted) | PropsDescribe | TimeFrameModel, StoreModel, EnergyModel, DescribeModel |
| C96 | partial | 8 (4 refuted) | PropsGoodCache | TimeFrameModel, StoreModel, ResultsModel, GoodSectionsModel, WholeModel, GoodCacheModel |
| C97 | partial | 6 (3 refuted) | PropsGrow | TimeFrameModel, StoreModel, ResultsModel, GoodSectionsModel, EnergyModel, WholeModel, GoodCacheModel, GrowModel, AvgModel |
| C98 | partial | 7 (4 refuted) | PropsSmart | SmartModel |
| C99 | partial | 10 (5 refuted) | PropsRmse | LabelModel, RmseModel |
| C100 | partial | 11 (6 refuted) | PropsPickle | PickleModel |
| C101 | partial | 9 (3 refuted) | PropsLocal | TimeFrameModel, SessionModel, StoreModel, LocalModel |
| C102 | partial | 16 (8 refuted) | PropsDownload | LocalModel, DownloadModel |
| C103 | partial | 12 (4 refuted) | PropsChain | TimeFrameModel, StoreModel, EnergyModel, PipelineModel, ChainModel |
| C104 | partial | 8 (3 refuted) | PropsSelect | DataportModel, SelectModel |
| C105 | partial | 9 (2 refuted) | PropsClear | TimeFrameModel, StoreModel, KeyModel, ConvModel, RemoveModel, CacheModel, ClearModel |
| C106 | partial | 8 (3 refuted) | PropsHouse | CorrModel, WiringModel, HouseModel |
| C107 | partial | 8 (4 refuted) | PropsHtml | HtmlModel |
| C108 | partial | 7 (3 refuted) | PropsLive | TimeFrameModel, StoreModel, LiveModel |
| C109 | partial | 8 (2 refuted) | PropsGreend | HtmlModel, GreendModel |
| C110 | partial | 4 (2 refuted) | PropsGHouse | GHouseModel |
| C111 | partial | 5 (2 refuted) | PropsCombed | CombedModel |
| C112 | partial | 4 (2 refuted) | PropsIawe | IaweModel |

## Disagreements between property and code

Every theorem whose name ends in `_refuted` shows an input for which the full property fails in the model, or that it always fails. Most are defects or surprises of the code as read:

* C01: never_inverted
* C03: end_point, touching
* C04: unbounded_guard, include_end
* C05: overlapping
* C06: empty
* C09: single_row, unbounded
* C100: _window, _truncated, _other_store, _fhmm_other_store, _not_opened, _untrained
* C101: _end, _day, _irregular
* C102: _meters_lost, _mixed, _twice, _last, _active, _everything, _half_open, _hour
* C103: _clip, _energy, _chained, _no_chunk
* C104: _description, _twice, _city
* C105: _disabled, _dataset
* C106: _one, _perfect, _last
* C107: _script, _less, _comma, _alike
* C108: _look, _one_more, _window
* C109: _break, _pandas
* C11: single_row
* C110: _lost, _order
* C111: _last, _pandas
* C112: _gap, _outside
* C12: single_row
* C14: sparse_chunk, nan_look_ahead, sections, combined_twice, csv
* C15: missing_reading
* C16: cumulative_missing, interval
* C17: combined_nan
* C18: mean
* C19: empty_frame
* C21: update_atomic, unify_extra_rows
* C22: window, chunks, types, no_data
* C23: dataset, tuple
* C25: one_sided
* C27: best_drops
* C28: utility, lenient, join_double_slash
* C31: open_range
* C32: edges, disjoint, border, missing
* C33: chunking, missing
* C34: voltage, mean, phase_angle, lone, grid, cut
* C35: empty_nested, union_nested, select_twice
* C36: none
* C37: negative, remainder
* C38: span, chunks, gap
* C39: lost, reactive
* C40: no_event, whole_change, chunks
* C41: ties
* C42: aggregate_without_dropna
* C43: f1_off, relative, nep, nothing, f1_chunks, fraction, align_short, align_midnight
* C44: own_type, count, category, appliances_order
* C45: last, off
* C46: lt_unbounded
* C47: last_sample
* C48: without_dropna
* C49: misaligned
* C50: index, columns
* C52: split_bin, overlap
* C53: order, disabled, mains
* C54: first_empty, empty_group
* C55: types, dropout_nested
* C56: nan, no_common_type
* C57: blank, misaligned
* C58: second_dataset, disabled_mains, no_submeters
* C59: overlap, mains, category, list
* C60: single_reading, large, to_hdf, from_csv
* C61: csv_append, put_empty
* C62: later_chunks, extra, no_classifier
* C63: boundary, missing
* C64: vampire, chunks
* C65: by_turns, same_appliance
* C66: other_group, documented, nested, deep, silent
* C67: default, hart_order
* C68: late_window, mixed_windows
* C69: several, lost
* C70: short, instance_one, same_instance, again, two_buildings, failed_train
* C71: numeric, replaced, save
* C72: chunkwise, houses, quiet, frames, first_frame, last_reading, sum, train_quiet
* C73: many, other_names, shared_mains, order, keeps_first
* C74: gaps, group, date
* C75: shared, again, limit, failed, twice
* C76: mixed, listed, chunks, twice
* C77: positional, hart, co, epochs
* C78: lost, full
* C79: mixed, witness, pandas
* C80: other, witness
* C81: energy, end, one_row
* C82: good, dropout, dropout_single, dropout_witness
* C83: dropout, energy, no_complete_row
* C84: clock, upstream_types, upstream_extra, upstream_none, no_complete_row
* C85: correlation_order, upstream_site, sample_period, sort
* C86: ukdale_order
* C87: refit_columns
* C88: signs
* C89: undo, csv_building
* C90: few_plugs, documented_name
* C91: across_sections, absent, gap, single
* C92: types
* C93: ideal_bad_name, ideal_documented_folder, ideal_times, ideal_lost, hipe_feed_in, hipe_second
* C94: pretty_appliance, same, all_types, empty, order
* C95: other_mains, number
* C96: repeat, order, chunk, window
* C97: put, put_good, section
* C98: units, times, order, stale_times
* C99: absent, missing, order, merged, suffix

## Trusted base

* Coq 8.16.1: its kernel, and `coqc`/`coqchk` as the programs that run it.
  `vm_compute` is used in examples and witnesses.
* Axioms. `Print Assumptions` follows every property theorem. It prints
  "Closed under the global context" for all of them except those that are about
  real numbers, which use axioms of the standard library's `Reals`:
  - all theorems of C38 (correlation), C99 (`compute_rmse`) and C106
    (correlation with the mains), C43_rmse, C43_nde, C43_rms, C43_rms_chunks,
    C43_nothing_refuted, C85_correlation_partial,
    C85_correlation_order_partial, C85_correlation_order_refuted:
    `ClassicalDedekindReals.sig_forall_dec`,
    `ClassicalDedekindReals.sig_not_dec`,
    `FunctionalExtensionality.functional_extensionality_dep`;
  - C106_last_refuted and the theorems of C88 (rounding) but the next three:
    the same without `sig_not_dec`;
  - C88_double, C88_double_rounds and C88_signs_refuted, about double precision
    as Flocq defines it: the three above and `Classical_Prop.classic`.

  No axiom is
  declared here. Tools that list every axiom of the loaded libraries (`coqchk`)
  also show axioms of library files that are loaded but not used
  (`ssrunder`).
* The reading of the Python code: each definition cites the lines it mirrors;
  nothing checks mechanically that they agree.
* The behaviour of the libraries the code calls, as documented: pandas >= 2.0
  (as `pyproject.toml` requires), numpy >= 1.24 and < 2, PyTables, networkx,
  sklearn, hmmlearn, nilm_metadata (its `recursively_update_dict` among others). Each is replaced at the call by the list
  operation it performs. Where the result is not determined by the
  documentation it is an argument of the model over which the theorems
  quantify: KMeans, MeanShift, silhouette score, random draws, HMM fitting and
  decoding, the order of sets, sorting functions (any that sort), argsort (any
  sorting permutation), loss functions and classifiers of an experiment,
  reading a file.
* Assumptions about the platform: Python 3, no hash collisions between
  different identifiers, no failing disk unless the failure is an argument,
  integers and rationals instead of floats (no rounding except in C88, no
  overflow, no infinities), one time zone or absolute timestamps, writes through
  `states.loc[t]` reach the frame (pandas 2 without copy-on-write, C72).

## What is modelled and what is not

Modelled: time frames and groups of them; the HDF5 and CSV stores as tables of
rows (loading in chunks and sections, appending, replacing, row counts,
metadata, conversion, tables that grow while they are read); keys; statistics (good sections, dropout rate, energy,
histograms) with their results and the cache; processing pipelines (`Node`
requirements, clipping, chains of nodes with their metadata); `ElecMeter` and `MeterGroup` (loading, selection,
wiring, statistics, identifiers, import of metadata); appliances and matching;
data sets and buildings, clearing their caches, `metadata.csv`, the display of metadata and the correlation of
mains and submeters; combinatorial optimisation, FHMM, Hart85 and Mean;
metrics, losses and `compute_rmse`; exported models; the experiment API; the converters for REDD, UK-DALE,
Dataport (CSV files and database), HES, REFIT, DRED, ECO, IDEAL, HIPE and SMART; the choice of files for COMBED, filling gaps for iAWE; for GREEND the splitting of files and the joining of blocks.

Not modelled: plotting and notebook output; downloads; the converters not named
above;
neural networks (none in this repository); memory limits and the on-disk
formats themselves; logging, warnings and printing; concurrency between
processes. Mutual information and entropy are not modelled.

Known gaps inside modelled functions are named in the comments of the
definitions and in the notes of `MANIFEST.json`.

## Testing the theorems against wrong programs

`seeded/LOG.jsonl` has one line per seeded bug: the definition edited, the edit,
the claim it breaks, the theorems and examples that no longer compile, and the
theorems that were tightened because the bug went unnoticed at first.

### Functions without a citation in the model

Computed from the citations in the model files: a function is listed if no model definition cites any of its lines. Functions that are cited may be modelled in part; the comment of the definition says which part.

* `__init__.py`: all
* `api.py`: API.__init__, API.store_classifier_instances
* `appliance.py`: Appliance.__init__, Appliance.identifier
* `dataset.py`: DataSet.describe, DataSet.plot_good_sections, DataSet.plot_mains_power_histograms
* `dataset_converters/ampds/convert_ampds.py`: all
* `dataset_converters/caxe/convert_caxe.py`: all
* `dataset_converters/combed/download.py`: all
* `dataset_converters/dataport/download_dataport.py`: view_database_tables, view_buildings, view_data_window
* `dataset_converters/deddiag/convert_deddiag.py`: all
* `dataset_converters/greend/convert_greend.py`: _get_houses
* `dataset_converters/hes/convert_hes.py`: load_list_of_house_ids
* `dataset_converters/hipe/convert_hipe.py`: main
* `dataset_converters/smart/convert_smart.py`: convert_smart, convert_smart._smart_measurement_mapping_func, _find_all_houses, _find_year
* `datastore/csvdatastore.py`: CSVDataStore.__init__, CSVDataStore.close, CSVDataStore.open, CSVDataStore._get_metadata_path
* `datastore/datastore.py`: DataStore.__getitem__, DataStore.window, DataStore.window, DataStore.load, DataStore.append, DataStore.put, DataStore.remove, DataStore.load_metadata, DataStore.save_metadata, DataStore.elements_below_key, DataStore.close, DataStore.open, DataStore.get_timeframe, write_yaml_to_file
* `datastore/hdfdatastore.py`: HDFDataStore.__getitem__, HDFDataStore.close, HDFDataStore.open, HDFDataStore._check_columns, HDFDataStore._table_has_column_names, HDFDataStore._column_names, HDFDataStore._check_data_will_fit_in_memory, HDFDataStore._estimate_memory_requirement, HDFDataStore._keys, HDFDataStore._get_storer, HDFDataStore._check_key
* `datastore/tmpdatastore.py`: all
* `disaggregate/disaggregator.py`: Disaggregator.partial_fit, Disaggregator.disaggregate_chunk, Disaggregator.call_preprocessing, Disaggregator.save_model, Disaggregator.load_model
* `disaggregate/hart_85.py`: Hart85.export_model, Hart85.import_model, Hart85.best_matched_appliance
* `docinherit.py`: all
* `elecmeter.py`: ElecMeter.key, ElecMeter.name, ElecMeter.name, ElecMeter._identifier_attr, ElecMeter._check_store
* `electric.py`: Electric._replace_none_with_meter_timeframe, Electric.plot, Electric._set_sample_period, Electric.plot_lag, Electric.plot_spectrum, Electric.plot_autocorrelation, Electric.plot_power_histogram, Electric.entropy, Electric.entropy.kdtree_entropy, Electric.mutual_information, Electric.mutual_information.kdtree_mi, Electric.mutual_information.zip2, Electric.mutual_information.avgdigamma, Electric.available_power_ac_types, Electric.activity_histogram, Electric.plot_activity_histogram, Electric.activation_series, activation_series_for_chunk
* `legacy/disaggregate/disaggregator.py`: Disaggregator.train, Disaggregator.train_on_chunk, Disaggregator.disaggregate, Disaggregator.disaggregate_chunk, Disaggregator._write_disaggregated_chunk_to_datastore, Disaggregator.import_model, Disaggregator.export_model
* `legacy/disaggregate/maximum_likelihood_estimation.py`: all
* `metergroup.py`: MeterGroup.select_using_appliances, MeterGroup.__repr__, MeterGroup.draw_wiring_graph, MeterGroup._convert_physical_quantity_and_ac_type_to_cols, MeterGroup._meter_generators, MeterGroup.entropy_per_meter, MeterGroup.pairwise_mutual_information, MeterGroup.plot, MeterGroup._plot_separate_lines, MeterGroup._plot_sankey, MeterGroup._plot_area, MeterGroup.plot_when_on, MeterGroup.plot_good_sections, MeterGroup.plot_good_sections.y_formatter, MeterGroup._plot_energy_bar, MeterGroup.plot_multiple, MeterGroup.all_meters
* `node.py`: Node.process, Node.required_measurements
* `plots.py`: all
* `preprocessing/apply.py`: Apply.__init__
* `results.py`: Results.__init__, Results.per_period, Results.simple, Results._columns_with_end_removed, Results.__repr__
* `stats/dropoutrateresults.py`: DropoutRateResults.plot
* `stats/goodsectionsresults.py`: GoodSectionsResults.__init__, GoodSectionsResults.append, GoodSectionsResults.plot
* `stats/totalenergy.py`: TotalEnergy.required_measurements
* `stats/totalenergyresults.py`: TotalEnergyResults.append
* `timeframe.py`: TimeFrame.__repr__, TimeFrame.check_tz, timeframe_from_dict
* `timeframegroup.py`: TimeFrameGroup.__init__, TimeFrameGroup.plot
* `utils.py`: show_versions, index_of_column_name, container_to_string, get_index, convert_to_timestamp, get_module_directory, check_directory_exists, tz_localize_naive, get_tz, timestamp_is_naive, get_datastore, print_on_line, convert_to_list, capitalise_index, capitalise_legend
