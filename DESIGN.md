# Formal model of fv3gfs-util in Rocq

The model is written in Coq 8.16.1, in `rocq/theories/` (logical name `Verif`).
It covers the python package `/repo/fv3gfs/util`.

## Layout

* `Base/` - results with python exceptions, integer-range and list lemmas, dictionaries.
* `Model/` - definitions only, one file per python module, every definition citing file and lines.
* `Spec/` - independent specifications (cube geometry, partition, ownership ...), not using model helpers.
* `Proofs/` - lemmas and proofs.
* `Props/` - the property theorems, each closed by `exact`, with `Print Assumptions` and a concrete example.
* `Tests/` - the model evaluated on the cases of the project's own tests (see "Checks of the reading" below). No theorem depends on it.

## Modelling conventions

* A numpy array is a shape (list of Z) with a total function from index lists to values;
  two arrays are the same when their shapes are equal and they agree on all in-range indices.
  The value type is abstract except where arithmetic matters, so results hold for all dtypes and data.
* Basic indexing (integers, slices, newaxis, omitted trailing dimensions, negative bounds) follows CPython's
  slice normalisation. Assignment through an index requires the broadcast rule of numpy.
* Exceptions are values (`Err e`), functions return `res A`.
* MPI is modelled as asynchronous point-to-point channels with FIFO order for each (source, destination, tag).
  A send request may complete at once (buffered) or only after the matching receive; an arbitrary oracle decides.
* Floating point in the extent computation and the conversion of dates is IEEE binary64 through Coq's `SpecFloat`, proved with Flocq.

## Plan per property

| id | modelled | proof |
|----|----------|-------|
| C01 | subtile_slice, rank extents | arithmetic, for all dims lists by induction over dims |
| C02 | same | same |
| C03 | float computation in SpecFloat | Flocq rounding error bound on the reciprocal for n<49; computed witness at 49 |
| C04 | same as C01 | arithmetic and witness |
| C05 | rank/tile/subtile index | Euclidean division |
| C06-C08, C11 | Tile/CubedSphere partitioner boundary, with np.where search | closed form of neighbours on (tile,row,col); case analysis; independent cube geometry |
| C09 | TilePartitioner | arithmetic mod layout |
| C10 | cache as state | invariant: every cached entry equals the computed value |
| C12-C14, C17-C19, C29 | boundary slices, rotation, halo update as message program | geometry of received points; frame by disjointness |
| C15, C16 | small-step network semantics | diamond property; commuting steps; any run extends to the same final state |
| C20-C24 | scatter, gather, states | pointwise reasoning over slices; fold over ranks |
| C25-C28, C30, C31 | Quantity, views, transpose | index arithmetic |
| C32, C33 | rot90, rotate functions, Boundary.rotate | pointwise |
| C34 | corner fill loops | induction on loops with non-overlap |
| C35 | sizer, factory | arithmetic |
| C36, C37 | buffer cache as heap state machine | invariant over histories |
| C38-C40 | Timer as state machine | refinement of an interval log |
| C41-C44 | ZarrMonitor as state machine | refinement of list of states; commutation of rank writes |
| C45 | nudging over an ordered field (rationals/reals) and abstract ops | pointwise |
| C46-C48 | dictionaries, property table | induction, computation on the finite table |
| C49 | descriptor table machine | invariant |
| C50 | strip on strings | induction |
| C51, C52 | DummyComm state machine | refinement of FIFO queues |
| C53, C54 | communicator state (boundaries set before they are computed, tag counter, timer) across calls | invariant over sequences of calls |
| C55-C57 | gather_state, scatter, scatter_state on the collective network | simulation of rounds; reshaping in C order |
| C58, C59 | DummyComm collectives and Split | refinement of shared lists |
| C60-C65 | restart file names, property table, loading, open_restart | induction over files and names; C61/C62 on the collective network |
| C66-C68 | states in files | induction over the variables of a file; any order of variables |
| C69-C70 | dates from numpy | error bounds and monotonicity of binary64 rounding (Flocq) |
| C71 | rank transformations | arithmetic |
| C72-C74 | views, flags of array objects | index arithmetic; invariant over histories |
| C75, C76 | all of the halo update, scatter and gather models | induction over steps on top of C16; places on the cube; composition with C20 and C21 |
| C77 | `Model/DummyNet.v`, `Model/DummyComm.v`, all of the halo update models | the events of C16 run phase by phase; queues hold the payloads of unfinished exchanges in order |
| C78, C81 | `Model/Cluster.v`, `Spec/Mixed.v` | one schedule is constructed from the results about messages and about collective operations; executions are confluent |
| C82 | `Model/Storage.v`, `Spec/Sharing.v` | invariant: the memory of each object is that of its family; histories by induction |
| C83 | `Model/ZarrOpen.v`, `Spec/Opening.v` | simulation of the run on an empty store; a count of the collective calls which ranks still need, for ranks which never end |
| C84 | `Spec/Unmatched.v` (model of C16) | invariant of all executions which counts, for each pair of ranks and tag, messages sent, taken and still to be received |
| C85 | `Model/CommTimer.v`, `Spec/CommTimes.v` | simulation of the model without clocks; counts by induction over the program |
| C86 | `Spec/Prognostic.v` (models of C16) | invariants of a step: which halos are filled, which edges are synchronized; every point of the sphere belongs to one tile |
| C87 | `Spec/TileRun.v` (models of C20, C21, C79, C81) | C79 and C20/C21 for tiles; the parts of a tile are those of the cube |
| C88 | `Spec/ModelRun.v` (models of C22, C23, C78, C86) | scatter_state, C86 and gather_state one after the other through C78; a sphere is put together from arrays which agree |
| C89 | `Spec/Types.v` (models of C12, C13, C18, C20) | elements paired with their types in the programs of C16; faces of the cube across which x and y exchange roles |
| C90 | `Model/Setup.v`, `Spec/Setup.v` (models of C12, C13, C18, C20, C35) | C35 for the allocated sizes; these satisfy the hypotheses of the other claims |
| C91 | `Model/Properties.v`, `Spec/PropertiesFile.v` (transcribed from the .yml file by `tools/yml.py`) | computation; induction for lookups |
| C92 | `Spec/History.v` (models of C41, C86) | C86 for the states after each step, C41 for the store; each point of the sphere is found on the rank which stores it last |
| C93 | `Spec/Refused.v` (models of C20-C23) | collective rounds which end in the exception |
| C94 | `Spec/Repeated.v` (models of C20, C21, C45) | induction on the calls; pointwise, so it commutes with parts; Bernoulli's inequality |
| C95 | `Spec/Spread.v` (models of C45) | broadcasting from the last axis; the index of a point in the reference |
| C96 | `Model/Joint.v`, `Spec/Joint.v` (models of C41, C78, C86) | each execution is followed by one of `Cluster.v`, in which a store is as many collective calls as it makes, and keeps the invariant of C41; steps of the store alone are counted |
| C97 | `Model/NudgingFloat.v`, `Spec/Rounded.v` (models of C45, C94) | errors of the six rounded operations by Flocq's relative error lemmas; induction on the number of calls, exact steps being contractions |
| C98 | `Spec/Shapes.v` (models of C12-C18) | shapes of the views of facing boundaries, from the geometry lemmas of C12-C18 |
| C99 | `Spec/Memory.v`, `Model/Strides.v` | refinement of views by offset and strides, by induction on chains of views; flags against row-major enumeration by induction on the shape |
| C79, C80 | `Model/TileComm.v` with Split | the same for each tile; an invariant for the absent rank |

## Execution models

Six small-step semantics stand for MPI, the file store and the schedulers:

* `Model/Network.v`: point-to-point messages. A schedule is any list of ranks; an oracle says which sends are buffered. Used for halo updates
  and interface synchronisation (C12-C18). A message is read when it is sent.
* `Model/LateRead.v`: the same, but MPI reads each element of a message at any time before the send request completes (C19). It is proved to have the same
  results as `Network.v` as long as no operation writes into memory still to be read.
* `Model/Collective.v`: bcast, Scatter and Gather with root 0. The n-th calls of all ranks belong together; calls that do not match never
  complete. A broadcast carries no name. Used for scatter, gather, states and open_restart.
* `Model/Cluster.v`: messages as in `Network.v`, collective operations as in `Collective.v` on any communicator, and Split, in one program per rank (C78-C81).
  Calls on one communicator belong together by their number on it.
* `Model/Joint.v`: messages as in `Cluster.v` and operations on a shared store as in `Shared.v`, in one program per rank (C96).
* `Model/Shared.v`: ranks working on one zarr store, one chunk read or written at a time, with broadcasts and barriers. `Model/ZarrOpen.v`
  adds opening the group and its broadcast in ZarrMonitor's constructor (C83); in C41-C44 the ranks start with the group of an empty store.

`Model/Storage.v` is not about several ranks: there arrays are blocks of memory and views of them, so that writing through one object is seen
through others (C82). The other models use values.

## Trusted base

1. Coq's kernel (checked again by coqchk).
2. The axioms that `Print Assumptions` lists for each theorem (below). All belong to the standard library. They come from the real numbers, through
   Flocq, in the proofs about the floating point computation of extents, about dates and about rounding in nudging; Flocq itself has no axioms. vcheck also names primitives of
   `Rdefinitions` and `ssrunder`: these are opaque module members in the loaded libraries, on which no theorem here depends.
3. The reading of the python text. Nothing was executed. The definitions in `Model/` were written by reading the cited lines. `Tests/` checks them
   against what the project's own tests expect.
4. The behaviour of numpy, MPI, xarray, zarr, cftime and the operating system as written in `Model/Numpy.v`, `Network.v`, `LateRead.v`, `Collective.v`,
   `Cluster.v`, `Shared.v`, `Joint.v`, `Capture.v` and in the comments of `Restart.v` and `Zarr.v`.

Axioms per theorem (written by `tools/assumptions.py --design`):

<!-- assumptions -->
* no axioms (closed under the global context) - 245 theorems: C35_allocated, C35_unknown, C35_halo_room, C35_one_shape, C06_boundary_reciprocal, C07_missing_iff_tile_corner, C07_nonsquare, C08_distinct_neighbours, C09_tile_periodic, C09_opposite, C09_compose, C10_cube_lookup_history_independent, C10_tile_lookup_history_independent, C11_neighbours_geometric, C11_places_distinct, C36_distinct, C37_send, C37_recv, C37_stale_refuted, C85_counts, C85_enabled, C85_disabled, C85_disabled_wait, C85_go_on, C85_clash, C34_filled, C34_around, C34_x_first, C34_y_second, C34_few, C34_direction, C69_later_refuted, C69_not_a_time, C15_collectives, C55_order_refuted, C56_scatter_nothing, C56_scatter_state_nothing, C89_types_kept, C89_mixed_vector, C89_mixed_interfaces, C17_zero_points, C17_not_c_grid, C17_scalar_possible, C17_vector_possible, C54_unusable_after, C53_nonsquare_silent, C66_written, C66_round_trip, C67_lost, C67_units, C68_read, C68_missing, C72_new_axes, C72_halo_refuted, C72_corners, C73_still_assignable, C73_readonly, C73_no_dimensions, C74_unknown, C74_everything, C74_by_name, C19_regions, C19_halo_update, C19_vector_halo_update, C19_synchronize, C19_programs, C19_disturbed_refuted, C99_views, C99_separate, C99_c_contiguous, C99_contiguous, C99_sent, C99_received, C99_message, C99_halo_sent, C99_halo_received, C99_scatter, C99_gather, C99_fortran_refuted, C88_sphere, C45_nudged, C45_missing, C45_distance, C45_closer, C45_zero_dims, C45_atomic_refuted, C45_extent_refuted, C78_mixed, C79_tile, C79_needs_all, C77_programs, C77_blocking, C77_out_of_turn_refuted, C16_any_order, C16_unbuffered_refuted, C03_layout_49_refuted, C05_rank_bijection, C05_root_rank_least, C05_tile_number_errors, C86_steps, C86_layouts, C86_applicable, C91_same, C91_lookup, C91_standard_names, C91_dims, C93_scatter, C93_gather, C94_steps, C94_distance, C94_near, C94_far, C46_no_loss, C46_precedence, C46_order, C47_table, C47_last, C47_collisions, C48_loaded, C48_tile, C60_suffixes_distinct, C60_suffix_defined, C60_notation, C61_file_names, C61_coupler_name, C62_failure_hangs, C62_required, C62_optional, C63_iterator_refuted, C63_subset, C64_coupler_date, C65_tracers, C65_names, C32_quarter, C32_compose, C32_identity, C32_vector_quarter, C32_vector_compose, C32_line, C33_result, C33_odd_refuted, C97_between_refuted, C98_facing, C98_scalar, C98_vector, C98_interfaces, C98_one_way_refuted, C82_separate, C82_shared, C82_copied, C82_transposed, C82_transposed_copy, C82_storage, C82_origin, C82_given, C82_twice, C82_factory, C95_spread, C95_state, C95_refused, C49_output, C49_raises, C49_closed, C49_closed_inside, C49_leaks, C51_fifo, C51_tags_ignored, C51_as_mpi, C51_crossed_refuted, C52_gather, C52_stale_refuted, C58_ordered, C58_root, C58_retry_refuted, C59_split, C59_split_shared, C71_flips, C71_turns, C71_outside, C71_rotations, C71_four_turns, C71_reflections, C71_clockwise, C71_only_square, C87_tiles, C87_parts, C87_gathered, C38_accounts, C38_running_enabled, C39_null, C40_clock_raises, C40_clock_returns, C50_equal_iff, C50_equivalence, C50_ensure, C84_twice, C84_missing, C84_not_waited, C84_by_number, C12_scalar_halo, C13_vector_halo, C14_scalar_frame, C14_vector_frame, C15_no_deadlock_scalar, C15_no_deadlock_vector, C16_programs, C18_synchronize, C18_vertical_first_refuted, C25_read, C25_write, C26_one_to_minus_one, C26_backwards, C26_last_few, C26_last_few_deep, C26_integer, C26_integer_outside, C27_view, C27_corner, C27_zero_dimensions, C28_read, C28_write, C28_sel, C28_sel_order, C29_exact, C29_regions, C30_transpose, C30_back, C30_refused, C31_array, C31_plain, C75_steps, C75_defined, C75_applicable, C75_layouts, C42_column_refuted, C43_other_names, C44_refused_after_resize, C44_misaligned, C44_accepted_again, C44_others_wait, C83_wiped, C83_existing, C83_others_wait, C83_read_only, C83_refused
* `ClassicalDedekindReals.sig_forall_dec`, `ClassicalDedekindReals.sig_not_dec`, `Classical_Prop.classic`, `FunctionalExtensionality.functional_extensionality_dep` - 52 theorems: C35_subtile, C35_namelist, C69_exact, C69_nanoseconds, C69_seconds, C70_order, C20_scatter, C21_gather, C21_gather_any_dims, C21_gather_inverts_scatter, C21_scatter_inverts_gather, C22_scatter_frame, C22_gather_frame, C23_scatter_state, C23_gather_state, C24_time_removed, C55_by_position, C57_reshaped, C89_scatter, C92_recorded, C96_program, C96_model, C88_run, C88_layouts, C80_open_restart, C81_one_program, C01_tile_partition, C01_cube_partition, C02_overlap_shape, C02_overlap_contains, C02_overlap_shared, C03_subtile_inverts_global, C03_global_inverts_subtile, C03_layouts_below_49, C04_nondivisible_lost, C93_scatter_state, C94_distributed, C61_open_restart, C97_nudged, C97_steps, C90_one_namelist, C90_halo, C90_vector, C90_interfaces, C90_scatter, C87_scatter, C87_gather, C87_runs, C76_distributed, C41_stores, C42_disjoint, C83_opened
<!-- end of assumptions -->

### What is modelled

| python file | modelled | not modelled |
|---|---|---|
| `_boundary_utils.py` | all | |
| `_capture_stream.py` | all, on a table of descriptors | data held in the python stream's own buffer |
| `_corners.py` | `fill_scalar_corners`, `_shared_edge_points` | |
| `_exceptions.py`, `constants.py` | all used names | |
| `_legacy_restart.py` | all | netCDF decoding (a file is a dataset or an error); attributes other than units |
| `_optional_imports.py`, `types.py` | | import fallbacks, protocols |
| `_properties.py` | dims, restart names and units of all entries (transcribed by `tools/table.py`) | descriptions |
| `_timing.py` | all; clock readings with abstract subtraction and addition | |
| `boundary.py` | all | |
| `buffer.py` | all; the timer argument in `Model/CommTimer.v` | `synchronize` of devices |
| `communicator.py` | halo updates, vector updates, interface synchronisation, scatter, gather, states, boundaries, tags, `tile` with Split of MPI | `_Send`, `_Recv` (unused), the partitioner of the tile communicator, device synchronisation, logging |
| `filesystem.py` | existence and content of files as a map | remote file systems |
| `initialization/` | sizer, factory, also `from_backend` | the choice between storage classes, dtype |
| `io.py`, `_xarray.py` | all; of xarray, which datasets it refuses, which variables are coordinates and which units it decodes | types of elements, netCDF encoding, remote file systems |
| `nudging.py` | all, over abstract arithmetic; in IEEE binary64 in C97 | arrays of other types |
| `partitioner.py` | all | float arithmetic beyond 2^51 |
| `quantity.py` | constructor, views, corner views, sel, values, transpose, data arrays, memory shared with arrays and gt4py storages (C82) | cupy, storages on devices other than as arrays, `__repr__`, dtype |
| `rotate.py`, `units.py` | all | |
| `time.py` | all; numpy's division and CPython's `utcfromtimestamp` in IEEE binary64 | numpy units other than days to nanoseconds, overflow when numpy converts units |
| `utils.py` | `list_by_dims`, `assign_array`, contiguity as an arbitrary predicate, and from the strides in `Strides.v` | |
| `zarr_monitor.py` | all | stores whose root is an array, compression, cftime arithmetic (an abstract encoding) |
| `testing/dummy_comm.py` | all | `gt4py_numpy.py`, `gt4py_cupy.py` |

General simplifications: integers are unbounded, dtypes and casts are not represented (C89 takes elements paired with their types as the abstract elements), array elements are of an abstract type, python dictionaries are
association lists in insertion order. Each definition states its own simplifications.

## Checks of the reading

The project's tests (`/repo/tests`, read as text) say what the authors expect of the code. `Tests/*.v` evaluates the model on their arguments and proves by
computation that it gives the expected values; no case disagreed. `tools/tests.py` writes `PartitionerTests.v`, `ViewTests.v`, `CornerTests.v` and `RotateTests.v`
(541 cases) from the parameter tables in the test files; the other files were written by hand after the tests they name, and say what they leave out.
Random arrays of the tests are replaced by arrays with distinct elements, nan by a number which does not occur otherwise. Not covered: tests with gt4py or cupy storages,
`test_open_c12_restart*` (they need the netCDF files of `tests/data`), and `tests/mpi` (which compares DummyComm with an MPI library; see C77).

## Mutation testing

`tools/mutate.py BATCH.json JOBS` applies one edit at a time to a copy of the theories, rebuilds with `make -k`, and reports the lemmas that fail and the property
theorems depending on them. `seeded/LOG.jsonl` has one line per edit; `seeded/batch*.json` are the edits. A failing proof script is evidence, not proof, that
the claim became false; where a wrong program was not caught, the theorem was tightened and the log says so.
