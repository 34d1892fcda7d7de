{
 "C01": {
  "note": "for tile and cube; extents up to 2^51, layouts for which the float computation is exact (all below 49)"
 },
 "C03": {
  "note": "exact for every layout that passes on its smallest instance, all layouts below 49; C03_layout_49_refuted shows the failure at 49"
 },
 "C04": {
  "note": "characterises the points that belong to no rank"
 },
 "C16": {
  "note": "messages are read when they are sent; C19 says for which programs it makes no difference if MPI reads them later. C16_any_order allows different wait orders with all sends buffered; C16_unbuffered_refuted is a program that deadlocks without buffering"
 },
 "C19": {
  "note": "programs in which what is being sent is not changed meanwhile; C19_disturbed_refuted shows that the condition is needed"
 },
 "C18": {
  "note": "C18_synchronize for the orders with both horizontal dimensions first; C18_vertical_first_refuted is a case with the vertical dimension first"
 },
 "C66": {
  "note": "what xarray and the netCDF library do is modelled from their documentation and source, not from this repository; that dates are encoded and decoded exactly is a hypothesis (dates_kept)"
 },
 "C67": {
  "note": "depends on the version of xarray: recent versions may leave durations undecoded"
 },
 "C75": {
  "note": "rules which look at a cross around a point: points diagonal across a corner of the cube do not exist; C75_layouts and C76 are for cell centres, where every place belongs to one tile"
 },
 "C76": {
  "note": "the three stages are executions of the two network models (collectives, messages), one after the other; the data is handed over through the quantities; C81 has them as one program"
 },
 "C77": {
  "note": "messages are lists of elements; that the sent array has the shape of the receive buffer, which DummyComm needs and MPI does not, is C98; C77_out_of_turn_refuted refutes the version of C77_programs without in_turn"
 },
 "C78": {
  "note": "updates only on square layouts, as in the code; achieves says what the operations do one after the other, in terms of C12-C18 for updates and of ranks proceeding in step for collective operations"
 },
 "C79": {
  "note": "the partitioner of the tile communicator is left out; the absent rank may do anything but collective calls on the communicator of all ranks"
 },
 "C80": {
  "note": "a new communicator object on every rank"
 },
 "C82": {
  "note": "that gt4py's allocators take backend, default_origin, shape and dtype in this order is read off the calls in allocator.py and quantity.py; a storage's array, data and gpu_view are taken to be the same memory"
 },
 "C83": {
  "note": "ContainsArrayError, ContainsGroupError and GroupNotFoundError are ValueErrors, ReadOnlyError an OSError (PermissionError). Modes as in zarr 2; the store's root is a group or empty."
 },
 "C84": {
  "note": "C84_missing counts updates by tags: one per scalar update or synchronisation, two per vector update. C84_not_waited assumes that the two ranks start the same updates."
 },
 "C85": {
  "note": "whether the array a receive fills is C contiguous is an arbitrary function of the quantity, the number of points and the boundary. C85_disabled also covers NullTimer and every state of a disabled timer."
 },
 "C86": {
  "note": "rules look along the axes: from a point to points of other quantities which are in the compute domain or the halo along one axis whatever the layout (reach). Vectors on the C grid may be read by rules but, as the package cannot synchronize them, are changed only if the rule gives both tiles the same value on their common edge (hypothesis develops of C86_steps)."
 },
 "C87": {
  "note": "the computation of C87_runs is on cell centres, as in C75 and C81."
 },
 "C88": {
  "note": "the state scattered has the names of the model's arrays; neg has a fixed point in C88_sphere and C88_layouts (0, or NaN for floating point numbers), as values in directions along which no component was given are not determined. Sharing of arrays between the dictionary of scatter_state and the handles of updates (the quantities of recv_state are those that are updated) is by position: array j belongs to the j-th name."
 },
 "C89": {
  "note": "an element is a value with its type and messages carry elements unchanged: an element in an array of another type stands for bytes read as another type than they were sent as, which MPI leaves undefined or makes an error (lengths in bytes can differ, too). Scalars of different types on different ranks are only covered by the hypothesis of C89_types_kept; gather copies from a buffer by assignment, which converts, and is left out"
 },
 "C90": {
  "note": "dimensions other than the horizontal ones are z and z_interface, as a sizer from a namelist knows no others; for layouts see C03. The numpy backend only"
 },
 "C91": {
  "note": "The file is transcribed by tools/yml.py with literal strings and the table by tools/table.py with the constants of the code. Nothing in the package reads the file; entries' descriptions and fortran_subname are left out."
 },
 "C92": {
  "note": "The ranks copy their arrays at the start and after every step in one execution of updates, synchronisation and computation; the stores of these copies are a second execution. Stores use the communicator only for collective calls (Model/Shared.v), which do not meet the point-to-point messages of updates (C78)."
 },
 "C93": {
  "note": "The exceptions concern the first dimension only; other wrong shapes (C57) are not part of this claim."
 },
 "C94": {
  "note": "Convergence is stated for rational numbers; the steps and the distributed program are stated for any arithmetic."
 },
 "C95": {
  "note": "C95_refused is for a single variable: among others a refused reference may be noticed after variables before it were nudged (C45_atomic_refuted). Where the difference does not broadcast the subtraction raises; a reference with more axes is refused by the constructor of the tendency, and a longer axis where the quantity has length one by the addition in place. The model is float64 arrays, as in C45."
 },
 "C96": {
  "note": "Messages, collective calls and operations on the store in one machine (Model/Joint.v). Every rank makes the same sequence of calls and the layout is square, as halo updates need. The state stored may depend on the rank and on its arrays, and so may its halo; what is stored is the compute domain. The time variable and the rules for stores are those of C41; other collective calls (scatter, gather) together with stores are not treated."
 },
 "C97": {
  "note": "C45 and C94 hold for all arithmetics; here they are taken with IEEE binary64 (round to nearest, ties to even). That the state stays between its old value and the reference is refuted by a computed example (C97_between_refuted): from 2.3 towards 9.9 with timestep and timescale of three seconds the state passes 9.9. Arrays of other types than float64 are not treated."
 },
 "C98": {
  "note": "C98_one_way_refuted refutes the version for scalars staggered in one direction only"
 },
 "C99": {
  "note": "elements which overlap partly and memory other than the CPU's are not represented; C99_fortran_refuted: ensure_contiguous, which DummyComm uses, accepts column-major arrays, of which MPI would send the elements in another order (the package itself only passes arrays which is_c_contiguous accepts)"
 }
}