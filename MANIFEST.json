{
 "claims": [
  {
   "property": "C01",
   "status": "proved",
   "theorems": [
    "C01_tile_partition",
    "C01_cube_partition"
   ],
   "note": "for tile and cube; extents up to 2^51, layouts for which the float computation is exact (all below 49)"
  },
  {
   "property": "C02",
   "status": "proved",
   "theorems": [
    "C02_overlap_shape",
    "C02_overlap_contains",
    "C02_overlap_shared"
   ],
   "note": ""
  },
  {
   "property": "C03",
   "status": "proved",
   "theorems": [
    "C03_subtile_inverts_global",
    "C03_global_inverts_subtile",
    "C03_layouts_below_49",
    "C03_layout_49_refuted"
   ],
   "note": "exact for every layout that passes on its smallest instance, all layouts below 49; C03_layout_49_refuted shows the failure at 49"
  },
  {
   "property": "C04",
   "status": "proved",
   "theorems": [
    "C04_nondivisible_lost"
   ],
   "note": "characterises the points that belong to no rank"
  },
  {
   "property": "C05",
   "status": "proved",
   "theorems": [
    "C05_rank_bijection",
    "C05_root_rank_least",
    "C05_tile_number_errors"
   ],
   "note": ""
  },
  {
   "property": "C06",
   "status": "proved",
   "theorems": [
    "C06_boundary_reciprocal"
   ],
   "note": ""
  },
  {
   "property": "C07",
   "status": "proved",
   "theorems": [
    "C07_missing_iff_tile_corner",
    "C07_nonsquare"
   ],
   "note": ""
  },
  {
   "property": "C08",
   "status": "proved",
   "theorems": [
    "C08_distinct_neighbours"
   ],
   "note": ""
  },
  {
   "property": "C09",
   "status": "proved",
   "theorems": [
    "C09_tile_periodic",
    "C09_opposite",
    "C09_compose"
   ],
   "note": ""
  },
  {
   "property": "C10",
   "status": "proved",
   "theorems": [
    "C10_cube_lookup_history_independent",
    "C10_tile_lookup_history_independent"
   ],
   "note": ""
  },
  {
   "property": "C11",
   "status": "proved",
   "theorems": [
    "C11_neighbours_geometric",
    "C11_places_distinct"
   ],
   "note": ""
  },
  {
   "property": "C12",
   "status": "proved",
   "theorems": [
    "C12_scalar_halo"
   ],
   "note": ""
  },
  {
   "property": "C13",
   "status": "proved",
   "theorems": [
    "C13_vector_halo"
   ],
   "note": ""
  },
  {
   "property": "C14",
   "status": "proved",
   "theorems": [
    "C14_scalar_frame",
    "C14_vector_frame"
   ],
   "note": ""
  },
  {
   "property": "C15",
   "status": "proved",
   "theorems": [
    "C15_collectives",
    "C15_no_deadlock_scalar",
    "C15_no_deadlock_vector"
   ],
   "note": ""
  },
  {
   "property": "C16",
   "status": "proved",
   "theorems": [
    "C16_any_order",
    "C16_unbuffered_refuted",
    "C16_programs"
   ],
   "note": "messages are read when they are sent; C19 says for which programs it makes no difference if MPI reads them later. C16_any_order allows different wait orders with all sends buffered; C16_unbuffered_refuted is a program that deadlocks without buffering"
  },
  {
   "property": "C17",
   "status": "proved",
   "theorems": [
    "C17_zero_points",
    "C17_not_c_grid",
    "C17_scalar_possible",
    "C17_vector_possible"
   ],
   "note": ""
  },
  {
   "property": "C18",
   "status": "proved",
   "theorems": [
    "C18_synchronize",
    "C18_vertical_first_refuted"
   ],
   "note": "C18_synchronize for the orders with both horizontal dimensions first; C18_vertical_first_refuted is a case with the vertical dimension first"
  },
  {
   "property": "C19",
   "status": "proved",
   "theorems": [
    "C19_regions",
    "C19_halo_update",
    "C19_vector_halo_update",
    "C19_synchronize",
    "C19_programs",
    "C19_disturbed_refuted"
   ],
   "note": "programs in which what is being sent is not changed meanwhile; C19_disturbed_refuted shows that the condition is needed"
  },
  {
   "property": "C20",
   "status": "proved",
   "theorems": [
    "C20_scatter"
   ],
   "note": ""
  },
  {
   "property": "C21",
   "status": "proved",
   "theorems": [
    "C21_gather",
    "C21_gather_any_dims",
    "C21_gather_inverts_scatter",
    "C21_scatter_inverts_gather"
   ],
   "note": ""
  },
  {
   "property": "C22",
   "status": "proved",
   "theorems": [
    "C22_scatter_frame",
    "C22_gather_frame"
   ],
   "note": ""
  },
  {
   "property": "C23",
   "status": "proved",
   "theorems": [
    "C23_scatter_state",
    "C23_gather_state"
   ],
   "note": ""
  },
  {
   "property": "C24",
   "status": "proved",
   "theorems": [
    "C24_time_removed"
   ],
   "note": ""
  },
  {
   "property": "C25",
   "status": "proved",
   "theorems": [
    "C25_read",
    "C25_write"
   ],
   "note": ""
  },
  {
   "property": "C26",
   "status": "proved",
   "theorems": [
    "C26_one_to_minus_one",
    "C26_backwards",
    "C26_last_few",
    "C26_last_few_deep",
    "C26_integer",
    "C26_integer_outside"
   ],
   "note": ""
  },
  {
   "property": "C27",
   "status": "proved",
   "theorems": [
    "C27_view",
    "C27_corner",
    "C27_zero_dimensions"
   ],
   "note": ""
  },
  {
   "property": "C28",
   "status": "proved",
   "theorems": [
    "C28_read",
    "C28_write",
    "C28_sel",
    "C28_sel_order"
   ],
   "note": ""
  },
  {
   "property": "C29",
   "status": "proved",
   "theorems": [
    "C29_exact",
    "C29_regions"
   ],
   "note": ""
  },
  {
   "property": "C30",
   "status": "proved",
   "theorems": [
    "C30_transpose",
    "C30_back",
    "C30_refused"
   ],
   "note": ""
  },
  {
   "property": "C31",
   "status": "proved",
   "theorems": [
    "C31_array",
    "C31_plain"
   ],
   "note": ""
  },
  {
   "property": "C32",
   "status": "proved",
   "theorems": [
    "C32_quarter",
    "C32_compose",
    "C32_identity",
    "C32_vector_quarter",
    "C32_vector_compose",
    "C32_line"
   ],
   "note": ""
  },
  {
   "property": "C33",
   "status": "proved",
   "theorems": [
    "C33_result",
    "C33_odd_refuted"
   ],
   "note": ""
  },
  {
   "property": "C34",
   "status": "proved",
   "theorems": [
    "C34_filled",
    "C34_around",
    "C34_x_first",
    "C34_y_second",
    "C34_few",
    "C34_direction"
   ],
   "note": ""
  },
  {
   "property": "C35",
   "status": "proved",
   "theorems": [
    "C35_allocated",
    "C35_unknown",
    "C35_halo_room",
    "C35_one_shape",
    "C35_subtile",
    "C35_namelist"
   ],
   "note": ""
  },
  {
   "property": "C36",
   "status": "proved",
   "theorems": [
    "C36_distinct"
   ],
   "note": ""
  },
  {
   "property": "C37",
   "status": "proved",
   "theorems": [
    "C37_send",
    "C37_recv",
    "C37_stale_refuted"
   ],
   "note": ""
  },
  {
   "property": "C38",
   "status": "proved",
   "theorems": [
    "C38_accounts",
    "C38_running_enabled"
   ],
   "note": ""
  },
  {
   "property": "C39",
   "status": "proved",
   "theorems": [
    "C39_null"
   ],
   "note": ""
  },
  {
   "property": "C40",
   "status": "proved",
   "theorems": [
    "C40_clock_raises",
    "C40_clock_returns"
   ],
   "note": ""
  },
  {
   "property": "C41",
   "status": "proved",
   "theorems": [
    "C41_stores"
   ],
   "note": ""
  },
  {
   "property": "C42",
   "status": "proved",
   "theorems": [
    "C42_disjoint",
    "C42_column_refuted"
   ],
   "note": ""
  },
  {
   "property": "C43",
   "status": "proved",
   "theorems": [
    "C43_other_names"
   ],
   "note": ""
  },
  {
   "property": "C44",
   "status": "proved",
   "theorems": [
    "C44_refused_after_resize",
    "C44_misaligned",
    "C44_accepted_again",
    "C44_others_wait"
   ],
   "note": ""
  },
  {
   "property": "C45",
   "status": "proved",
   "theorems": [
    "C45_nudged",
    "C45_missing",
    "C45_distance",
    "C45_closer",
    "C45_zero_dims",
    "C45_atomic_refuted",
    "C45_extent_refuted"
   ],
   "note": ""
  },
  {
   "property": "C46",
   "status": "proved",
   "theorems": [
    "C46_no_loss",
    "C46_precedence",
    "C46_order"
   ],
   "note": ""
  },
  {
   "property": "C47",
   "status": "proved",
   "theorems": [
    "C47_table",
    "C47_last",
    "C47_collisions"
   ],
   "note": ""
  },
  {
   "property": "C48",
   "status": "proved",
   "theorems": [
    "C48_loaded",
    "C48_tile"
   ],
   "note": ""
  },
  {
   "property": "C49",
   "status": "proved",
   "theorems": [
    "C49_output",
    "C49_raises",
    "C49_closed",
    "C49_closed_inside",
    "C49_leaks"
   ],
   "note": ""
  },
  {
   "property": "C50",
   "status": "proved",
   "theorems": [
    "C50_equal_iff",
    "C50_equivalence",
    "C50_ensure"
   ],
   "note": ""
  },
  {
   "property": "C51",
   "status": "proved",
   "theorems": [
    "C51_fifo",
    "C51_tags_ignored",
    "C51_as_mpi",
    "C51_crossed_refuted"
   ],
   "note": ""
  },
  {
   "property": "C52",
   "status": "proved",
   "theorems": [
    "C52_gather",
    "C52_stale_refuted"
   ],
   "note": ""
  },
  {
   "property": "C53",
   "status": "proved",
   "theorems": [
    "C53_nonsquare_silent"
   ],
   "note": ""
  },
  {
   "property": "C54",
   "status": "proved",
   "theorems": [
    "C54_unusable_after"
   ],
   "note": ""
  },
  {
   "property": "C55",
   "status": "proved",
   "theorems": [
    "C55_by_position",
    "C55_order_refuted"
   ],
   "note": ""
  },
  {
   "property": "C56",
   "status": "proved",
   "theorems": [
    "C56_scatter_nothing",
    "C56_scatter_state_nothing"
   ],
   "note": ""
  },
  {
   "property": "C57",
   "status": "proved",
   "theorems": [
    "C57_reshaped"
   ],
   "note": ""
  },
  {
   "property": "C58",
   "status": "proved",
   "theorems": [
    "C58_ordered",
    "C58_root",
    "C58_retry_refuted"
   ],
   "note": ""
  },
  {
   "property": "C59",
   "status": "proved",
   "theorems": [
    "C59_split",
    "C59_split_shared"
   ],
   "note": ""
  },
  {
   "property": "C60",
   "status": "proved",
   "theorems": [
    "C60_suffixes_distinct",
    "C60_suffix_defined",
    "C60_notation"
   ],
   "note": ""
  },
  {
   "property": "C61",
   "status": "proved",
   "theorems": [
    "C61_open_restart",
    "C61_file_names",
    "C61_coupler_name"
   ],
   "note": ""
  },
  {
   "property": "C62",
   "status": "proved",
   "theorems": [
    "C62_failure_hangs",
    "C62_required",
    "C62_optional"
   ],
   "note": ""
  },
  {
   "property": "C63",
   "status": "proved",
   "theorems": [
    "C63_iterator_refuted",
    "C63_subset"
   ],
   "note": ""
  },
  {
   "property": "C64",
   "status": "proved",
   "theorems": [
    "C64_coupler_date"
   ],
   "note": ""
  },
  {
   "property": "C65",
   "status": "proved",
   "theorems": [
    "C65_tracers",
    "C65_names"
   ],
   "note": ""
  },
  {
   "property": "C66",
   "status": "proved",
   "theorems": [
    "C66_written",
    "C66_round_trip"
   ],
   "note": "what xarray and the netCDF library do is modelled from their documentation and source, not from this repository; that dates are encoded and decoded exactly is a hypothesis (dates_kept)"
  },
  {
   "property": "C67",
   "status": "proved",
   "theorems": [
    "C67_lost",
    "C67_units"
   ],
   "note": "depends on the version of xarray: recent versions may leave durations undecoded"
  },
  {
   "property": "C68",
   "status": "proved",
   "theorems": [
    "C68_read",
    "C68_missing"
   ],
   "note": ""
  },
  {
   "property": "C69",
   "status": "proved",
   "theorems": [
    "C69_exact",
    "C69_nanoseconds",
    "C69_seconds",
    "C69_later_refuted",
    "C69_not_a_time"
   ],
   "note": ""
  },
  {
   "property": "C70",
   "status": "proved",
   "theorems": [
    "C70_order"
   ],
   "note": ""
  },
  {
   "property": "C71",
   "status": "proved",
   "theorems": [
    "C71_flips",
    "C71_turns",
    "C71_outside",
    "C71_rotations",
    "C71_four_turns",
    "C71_reflections",
    "C71_clockwise",
    "C71_only_square"
   ],
   "note": ""
  },
  {
   "property": "C72",
   "status": "proved",
   "theorems": [
    "C72_new_axes",
    "C72_halo_refuted",
    "C72_corners"
   ],
   "note": ""
  },
  {
   "property": "C73",
   "status": "proved",
   "theorems": [
    "C73_still_assignable",
    "C73_readonly",
    "C73_no_dimensions"
   ],
   "note": ""
  },
  {
   "property": "C74",
   "status": "proved",
   "theorems": [
    "C74_unknown",
    "C74_everything",
    "C74_by_name"
   ],
   "note": ""
  },
  {
   "property": "C75",
   "status": "proved",
   "theorems": [
    "C75_steps",
    "C75_defined",
    "C75_applicable",
    "C75_layouts"
   ],
   "note": "rules which look at a cross around a point: points diagonal across a corner of the cube do not exist; C75_layouts and C76 are for cell centres, where every place belongs to one tile"
  },
  {
   "property": "C76",
   "status": "proved",
   "theorems": [
    "C76_distributed"
   ],
   "note": "the three stages are executions of the two network models (collectives, messages), one after the other; the data is handed over through the quantities; C81 has them as one program"
  },
  {
   "property": "C77",
   "status": "proved",
   "theorems": [
    "C77_programs",
    "C77_blocking",
    "C77_out_of_turn_refuted"
   ],
   "note": "messages are lists of elements; that the sent array has the shape of the receive buffer, which DummyComm needs and MPI does not, is C98; C77_out_of_turn_refuted refutes the version of C77_programs without in_turn"
  },
  {
   "property": "C78",
   "status": "proved",
   "theorems": [
    "C78_mixed"
   ],
   "note": "updates only on square layouts, as in the code; achieves says what the operations do one after the other, in terms of C12-C18 for updates and of ranks proceeding in step for collective operations"
  },
  {
   "property": "C79",
   "status": "proved",
   "theorems": [
    "C79_tile",
    "C79_needs_all"
   ],
   "note": "the partitioner of the tile communicator is left out; the absent rank may do anything but collective calls on the communicator of all ranks"
  },
  {
   "property": "C80",
   "status": "proved",
   "theorems": [
    "C80_open_restart"
   ],
   "note": "a new communicator object on every rank"
  },
  {
   "property": "C81",
   "status": "proved",
   "theorems": [
    "C81_one_program"
   ],
   "note": ""
  },
  {
   "property": "C82",
   "status": "proved",
   "theorems": [
    "C82_separate",
    "C82_shared",
    "C82_copied",
    "C82_transposed",
    "C82_transposed_copy",
    "C82_storage",
    "C82_origin",
    "C82_given",
    "C82_twice",
    "C82_factory"
   ],
   "note": "that gt4py's allocators take backend, default_origin, shape and dtype in this order is read off the calls in allocator.py and quantity.py; a storage's array, data and gpu_view are taken to be the same memory"
  },
  {
   "property": "C83",
   "status": "proved",
   "theorems": [
    "C83_opened",
    "C83_wiped",
    "C83_existing",
    "C83_others_wait",
    "C83_read_only",
    "C83_refused"
   ],
   "note": "ContainsArrayError, ContainsGroupError and GroupNotFoundError are ValueErrors, ReadOnlyError an OSError (PermissionError). Modes as in zarr 2; the store's root is a group or empty."
  },
  {
   "property": "C84",
   "status": "proved",
   "theorems": [
    "C84_twice",
    "C84_missing",
    "C84_not_waited",
    "C84_by_number"
   ],
   "note": "C84_missing counts updates by tags: one per scalar update or synchronisation, two per vector update. C84_not_waited assumes that the two ranks start the same updates."
  },
  {
   "property": "C85",
   "status": "proved",
   "theorems": [
    "C85_counts",
    "C85_enabled",
    "C85_disabled",
    "C85_disabled_wait",
    "C85_go_on",
    "C85_clash"
   ],
   "note": "whether the array a receive fills is C contiguous is an arbitrary function of the quantity, the number of points and the boundary. C85_disabled also covers NullTimer and every state of a disabled timer."
  },
  {
   "property": "C86",
   "status": "proved",
   "theorems": [
    "C86_steps",
    "C86_layouts",
    "C86_applicable"
   ],
   "note": "rules look along the axes: from a point to points of other quantities which are in the compute domain or the halo along one axis whatever the layout (reach). Vectors on the C grid may be read by rules but, as the package cannot synchronize them, are changed only if the rule gives both tiles the same value on their common edge (hypothesis develops of C86_steps)."
  },
  {
   "property": "C87",
   "status": "proved",
   "theorems": [
    "C87_tiles",
    "C87_scatter",
    "C87_gather",
    "C87_parts",
    "C87_gathered",
    "C87_runs"
   ],
   "note": "the computation of C87_runs is on cell centres, as in C75 and C81."
  },
  {
   "property": "C88",
   "status": "proved",
   "theorems": [
    "C88_run",
    "C88_sphere",
    "C88_layouts"
   ],
   "note": "the state scattered has the names of the model's arrays; neg has a fixed point in C88_sphere and C88_layouts (0, or NaN for floating point numbers), as values in directions along which no component was given are not determined. Sharing of arrays between the dictionary of scatter_state and the handles of updates (the quantities of recv_state are those that are updated) is by position: array j belongs to the j-th name."
  },
  {
   "property": "C89",
   "status": "proved",
   "theorems": [
    "C89_types_kept",
    "C89_mixed_vector",
    "C89_mixed_interfaces",
    "C89_scatter"
   ],
   "note": "an element is a value with its type and messages carry elements unchanged: an element in an array of another type stands for bytes read as another type than they were sent as, which MPI leaves undefined or makes an error (lengths in bytes can differ, too). Scalars of different types on different ranks are only covered by the hypothesis of C89_types_kept; gather copies from a buffer by assignment, which converts, and is left out"
  },
  {
   "property": "C90",
   "status": "proved",
   "theorems": [
    "C90_one_namelist",
    "C90_halo",
    "C90_vector",
    "C90_interfaces",
    "C90_scatter"
   ],
   "note": "dimensions other than the horizontal ones are z and z_interface, as a sizer from a namelist knows no others; for layouts see C03. The numpy backend only"
  },
  {
   "property": "C91",
   "status": "proved",
   "theorems": [
    "C91_same",
    "C91_lookup",
    "C91_standard_names",
    "C91_dims"
   ],
   "note": "The file is transcribed by tools/yml.py with literal strings and the table by tools/table.py with the constants of the code. Nothing in the package reads the file; entries' descriptions and fortran_subname are left out."
  },
  {
   "property": "C92",
   "status": "proved",
   "theorems": [
    "C92_recorded"
   ],
   "note": "The ranks copy their arrays at the start and after every step in one execution of updates, synchronisation and computation; the stores of these copies are a second execution. Stores use the communicator only for collective calls (Model/Shared.v), which do not meet the point-to-point messages of updates (C78)."
  },
  {
   "property": "C93",
   "status": "proved",
   "theorems": [
    "C93_scatter",
    "C93_scatter_state",
    "C93_gather"
   ],
   "note": "The exceptions concern the first dimension only; other wrong shapes (C57) are not part of this claim."
  },
  {
   "property": "C94",
   "status": "proved",
   "theorems": [
    "C94_steps",
    "C94_distributed",
    "C94_distance",
    "C94_near",
    "C94_far"
   ],
   "note": "Convergence is stated for rational numbers; the steps and the distributed program are stated for any arithmetic."
  },
  {
   "property": "C95",
   "status": "proved",
   "theorems": [
    "C95_spread",
    "C95_state",
    "C95_refused"
   ],
   "note": "C95_refused is for a single variable: among others a refused reference may be noticed after variables before it were nudged (C45_atomic_refuted). Where the difference does not broadcast the subtraction raises; a reference with more axes is refused by the constructor of the tendency, and a longer axis where the quantity has length one by the addition in place. The model is float64 arrays, as in C45."
  },
  {
   "property": "C96",
   "status": "proved",
   "theorems": [
    "C96_program",
    "C96_model"
   ],
   "note": "Messages, collective calls and operations on the store in one machine (Model/Joint.v). Every rank makes the same sequence of calls and the layout is square, as halo updates need. The state stored may depend on the rank and on its arrays, and so may its halo; what is stored is the compute domain. The time variable and the rules for stores are those of C41; other collective calls (scatter, gather) together with stores are not treated."
  },
  {
   "property": "C97",
   "status": "proved",
   "theorems": [
    "C97_nudged",
    "C97_steps",
    "C97_between_refuted"
   ],
   "note": "C45 and C94 hold for all arithmetics; here they are taken with IEEE binary64 (round to nearest, ties to even). That the state stays between its old value and the reference is refuted by a computed example (C97_between_refuted): from 2.3 towards 9.9 with timestep and timescale of three seconds the state passes 9.9. Arrays of other types than float64 are not treated."
  },
  {
   "property": "C98",
   "status": "proved",
   "theorems": [
    "C98_facing",
    "C98_scalar",
    "C98_vector",
    "C98_interfaces",
    "C98_one_way_refuted"
   ],
   "note": "C98_one_way_refuted refutes the version for scalars staggered in one direction only"
  },
  {
   "property": "C99",
   "status": "proved",
   "theorems": [
    "C99_views",
    "C99_separate",
    "C99_c_contiguous",
    "C99_contiguous",
    "C99_sent",
    "C99_received",
    "C99_message",
    "C99_halo_sent",
    "C99_halo_received",
    "C99_scatter",
    "C99_gather",
    "C99_fortran_refuted"
   ],
   "note": "elements which overlap partly and memory other than the CPU's are not represented; C99_fortran_refuted: ensure_contiguous, which DummyComm uses, accepts column-major arrays, of which MPI would send the elements in another order (the package itself only passes arrays which is_c_contiguous accepts)"
  }
 ]
}