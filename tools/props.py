import json, os
P=[]
def p(id,title,statement,quantifier,why,anchors):
    P.append(dict(id=id,title=title,statement=statement,quantifier=quantifier,why_tests_cant=why,anchors=anchors))
p("C01","Ranks partition a tile exactly","For a variable with one x-like and one y-like dimension on a tile whose grid-cell counts are divisible by the layout, the slices returned by subtile_slice with overlap=False assign every point of the tile's computational domain to exactly one rank: none is dropped, none is assigned twice. A point shared by adjacent ranks (interface dimensions) belongs to the greater rank.","all layouts (below the float limit of C03), all lists of dimension names (cell-centred, interface, vertical, extra, any order), all extents divisible by the layout, all points","the space of layouts, dimension orders and extents is infinite; tests use a handful of layouts",["fv3gfs/util/partitioner.py:subtile_slice","fv3gfs/util/partitioner.py:TilePartitioner.subtile_slice"])
p("C02","Overlapping subtile slices all have the advertised shape and share only interface points","With overlap=True the slice of every rank has exactly the shape subtile_extent reports, stays inside the tile, every tile point is covered, and a point is covered by two ranks adjacent along a dimension only if it is the shared interface point.","all layouts, dims, divisible extents, ranks, points","same infinite space; the shape agreement is what lets scatter fill fixed-size buffers",["fv3gfs/util/partitioner.py:subtile_slice","fv3gfs/util/partitioner.py:rank_extent_from_tile_metadata"])
p("C03","Extents computed through floating point are exact","subtile_extent inverts global_extent: for a rank extent e on a layout with n ranks along a dimension, the tile extent computed from e and converted back by multiplying with the IEEE double 1/n and truncating is exactly e. This holds for every tile extent up to about 2^51 for every layout that is right on its smallest instance (n cells on n ranks give 1), in particular for all layouts below 49; it fails for a layout of 49 (cell-centred extent 49 gives 0).","all extents up to 2^51, all layouts that are right on their smallest instance; plus the failing layout","the arithmetic goes through floats; a test cannot try every extent, and the first failing layout is one no test uses",["fv3gfs/util/partitioner.py:rank_extent_from_tile_metadata","fv3gfs/util/partitioner.py:tile_extent_from_rank_metadata","fv3gfs/util/partitioner.py:extent_from_metadata"])
p("C04","Tiles not divisible by the layout silently lose points","subtile_slice does not reject a tile extent which is not divisible by the layout: no error is raised and, for a cell-centred dimension, the trailing (extent mod n) points are assigned to no rank.","all layouts and extents","a universally quantified statement about every non-divisible extent",["fv3gfs/util/partitioner.py:subtile_slice"])
p("C05","Rank numbering is a bijection with (tile, subtile row, subtile column)","For a layout (ny, nx), the ranks 0..6*ny*nx-1 correspond one-to-one with (tile index, subtile index) pairs as given by tile_index and subtile_index; tile_root_rank is the least rank with the same tile index; get_tile_index and get_tile_number raise ValueError exactly when the total is not a multiple of 6.","all positive layouts, all ranks","needs every layout and every rank",["fv3gfs/util/partitioner.py:get_tile_index","fv3gfs/util/partitioner.py:get_tile_number","fv3gfs/util/partitioner.py:subtile_index","fv3gfs/util/partitioner.py:CubedSpherePartitioner.tile_root_rank"])
p("C06","Cubed-sphere boundaries are reciprocal","Whenever boundary(b, r) leads to rank r', r' is a valid rank other than r, and r' has exactly one boundary leading back to r; the rotations of the two boundaries are inverse (sum to 0 modulo 4).","all square layouts n>=1, all 6*n*n ranks, all eight boundary types","tests list neighbours for a few layouts only; an irreciprocal boundary would deadlock or mis-deliver",["fv3gfs/util/partitioner.py:CubedSpherePartitioner.boundary"])
p("C07","A boundary is missing exactly at the corners of a cube face","boundary(b, r) is None iff b is a corner type and r sits at that corner of its tile; every other boundary exists, and a non-square layout raises NotImplementedError whenever a boundary is computed.","all layouts, ranks and boundary types","needs every layout and rank",["fv3gfs/util/partitioner.py:CubedSpherePartitioner.boundary"])
p("C08","No two boundaries of a rank lead to the same rank","The target ranks of the existing boundaries of a rank are pairwise different, so (source, tag) identifies a halo message uniquely even though all boundaries of one update use one tag.","all square layouts, all ranks","one colliding layout would silently swap halo data; tests cannot enumerate layouts",["fv3gfs/util/partitioner.py:CubedSpherePartitioner.boundary","fv3gfs/util/communicator.py:CubedSphereCommunicator._Irecv_halos"])
p("C09","Tile boundaries are doubly periodic","TilePartitioner.boundary leads to the rank one step away with wrap-around in both directions, opposite boundaries invert each other, and a corner is the composition of its two edges in either order.","all layouts (also non-square), all ranks, all boundary types","needs every layout",["fv3gfs/util/partitioner.py:TilePartitioner.boundary"])
p("C10","Boundary lookups do not depend on history","boundary(b, r) returns the same value whatever was looked up before and whatever callers did to the boundary objects returned earlier (callers mutate them), although results are cached.","all histories of lookups and mutations","a property of every history of calls",["fv3gfs/util/partitioner.py:CubedSpherePartitioner.boundary","fv3gfs/util/partitioner.py:TilePartitioner.boundary"])
p("C11","Neighbouring ranks are geometric neighbours on the cube","The rank and rotation of a boundary are those obtained by walking straight over the edge (or corner) of the subtile on the surface of a cube whose six faces are joined as in FV3.","all square layouts, all ranks, all boundary types","tests compare with hand-derived tables for few layouts",["fv3gfs/util/partitioner.py:CubedSpherePartitioner.boundary"])
p("C12","A scalar halo update fills every halo point with the value at the same place on the sphere","After halo_update with n points on all ranks, every point of a rank's halo up to depth n (excluding the corners of the tile) holds the value some rank had, before the update, at the point of its compute domain lying at the same geometric position on the cube.","all square layouts, all subtile sizes, all halo widths not exceeding the compute domain, cell-centred and interface variables, any dimension order and any extra dimensions, any origin, any data of any type","infinitely many sizes, dimension orders and data; tests check depth or rank-number patterns for two layouts",["fv3gfs/util/communicator.py:CubedSphereCommunicator.halo_update","fv3gfs/util/boundary.py:SimpleBoundary","fv3gfs/util/rotate.py:rotate_scalar_data"])
p("C13","A vector halo update preserves the geometric vector","After vector_halo_update, every halo point of each component holds plus or minus the value of that component of a neighbouring rank's vector which lies at the same position and, with that sign, points in the same direction in space.","as C12, for A-grid, C-grid, D-grid and fully staggered vector components","sign and component swaps depend on tile parity and direction; tests check constant fields",["fv3gfs/util/communicator.py:CubedSphereCommunicator.vector_halo_update","fv3gfs/util/rotate.py:rotate_vector_data"])
p("C14","Halo updates change nothing but the halo","A scalar or vector halo update with n points leaves the compute domain, all points more than n points outside it, and the halo at tile corners unchanged.","all layouts, sizes, dims, origins, data","frame condition over all points of all arrays",["fv3gfs/util/communicator.py:CubedSphereCommunicator.start_halo_update","fv3gfs/util/_boundary_utils.py:get_boundary_slice"])
p("C15","Halo updates cannot deadlock and do not depend on the schedule","When all ranks run the same halo update, under every interleaving and whether or not MPI buffers any given send (a send may complete only after it is received), no rank blocks forever and the final state of every rank is the same.","all schedules, all choices of send buffering, all layouts","no finite number of runs covers all interleavings and buffering choices",["fv3gfs/util/communicator.py:HaloUpdateRequest.wait","fv3gfs/util/communicator.py:CubedSphereCommunicator.start_halo_update"])
p("C16","Concurrent halo updates do not interfere","Several halo updates (scalar and vector, started before earlier ones are waited for) on one communicator give each quantity the data that update alone would give it, for every interleaving of messages and every buffering of sends, provided all ranks call start and wait in the same order. With all sends buffered, the waits may come in a different order on each rank; without buffering different orders can deadlock.","any number of overlapping updates, any wait order, any schedule, any buffering","number of interleavings and programs is unbounded",["fv3gfs/util/communicator.py:HaloUpdateRequest","fv3gfs/util/communicator.py:CubedSphereCommunicator._get_halo_tag"])
p("C17","Impossible halo updates are rejected","A halo update with zero points, or a synchronisation of interfaces of a vector not on a C grid, raises ValueError before sending anything; a halo update needing points outside the array raises OutOfBoundsError; otherwise (n>=1 points fit in every array) no error is raised.","all quantities, all point counts","all shapes, origins and extents",["fv3gfs/util/communicator.py:CubedSphereCommunicator.start_halo_update","fv3gfs/util/_boundary_utils.py:get_boundary_slice"])
p("C18","Interface synchronisation makes shared edges agree geometrically","After synchronize_vector_interfaces, every point on a rank's north edge of the x component and east edge of the y component equals, up to the sign given by the directions in space, the value the neighbour had at the same geometric point of its south or west edge; nothing else changes. It requires the dimension along the edge to come before any other dimension kept in the edge slice: with a vertical dimension first, rotated edges are reversed vertically instead of horizontally.","all square layouts, sizes, data; dimension orders with the horizontal dimensions first; and the failing order","tests use 2-D arrays and one rank",["fv3gfs/util/communicator.py:CubedSphereCommunicator.synchronize_vector_interfaces"])
p("C19","A halo update never overwrites data it is still sending","The regions of an array written by receiving a halo are disjoint from all regions sent by the same update, so sends whose buffer aliases the array (contiguous views are not copied) transmit the original data whenever MPI reads the buffer.","all sizes, boundary types and pairs of regions","aliasing depends on timing inside MPI",["fv3gfs/util/communicator.py:CubedSphereCommunicator._Isend","fv3gfs/util/_boundary_utils.py:get_boundary_slice"])
p("C20","Scatter delivers to each rank its own part","After scatter, the compute domain of each rank's received quantity equals the region of the global compute domain given by subtile_slice(overlap=True), and dims and units are those of the global quantity (without the tile dimension on the cube).","all layouts, dims, divisible extents, origins of the source and of a supplied receive quantity, data","all sizes and data",["fv3gfs/util/communicator.py:Communicator.scatter"])
p("C21","Gather inverts scatter","Gathering what scatter delivered reproduces the global compute domain exactly; conversely scattering a gathered quantity reproduces each rank's data if ranks agree on shared interface points. Where ranks disagree on a shared point, gather keeps the value of the greatest rank.","all layouts, dims, divisible extents, data; tile and cube","all sizes and data",["fv3gfs/util/communicator.py:Communicator.gather","fv3gfs/util/communicator.py:Communicator.scatter"])
p("C22","Scatter and gather write only the compute domain of the receiver","When a receive quantity is supplied, scatter and gather change only points in its compute domain; halo points keep their values.","all receive quantities with any origin and extent","frame condition over all arrays",["fv3gfs/util/communicator.py:Communicator.scatter","fv3gfs/util/communicator.py:Communicator.gather"])
p("C23","State scatter and gather act name by name","scatter_state/gather_state give each name in the sent state exactly the result of scatter/gather for that quantity, 'time' is copied from the root rank, all other entries of a supplied receive state are untouched. scatter_state does so for any dictionary order on any rank; gather_state needs all ranks to list their variables in the same order (see C55).","all state dictionaries and receive states","all dictionaries",["fv3gfs/util/communicator.py:Communicator.scatter_state","fv3gfs/util/communicator.py:Communicator.gather_state"])
p("C24","scatter_state removes an existing time when the root has none","scatter_state documents that only scattered variables are written in the receive state, but if the sent state has no 'time', any 'time' already in the receive state is deleted (on every rank); all other names not sent are kept.","all receive states","an interaction of two optional arguments over all states",["fv3gfs/util/communicator.py:Communicator.scatter_state"])
p("C25","Indexing a view addresses the compute domain","For indices inside the compute domain (integers 0<=i<extent, slices with bounds and steps inside it, omitted bounds or dimensions), reading quantity.view[...] gives the same result or exception as indexing the compute domain copied into an array of its own, and assigning has the same effect on the compute domain and leaves everything else unchanged.","all quantities, all in-domain indices","all shapes, origins, extents and index tuples",["fv3gfs/util/quantity.py:BoundedArrayView"])
p("C26","Negative indices on view are relative to the data array, not to the compute domain, when there is a halo","The documentation says view[1:-1] selects the points not on the edge. Whenever 1 <= origin, view[1:-1] selects nothing; view[-k:] starts k points before the compute domain if k<=origin and is the last k points otherwise; the integer -k is the point k before the origin, wrapping around the whole array; view[::-1] is always empty. An integer raises IndexError exactly when, shifted by the origin, it misses the whole array.","all origins and extents","tests never use negative indices on view with a nonzero origin",["fv3gfs/util/quantity.py:shift_index","docs/state.rst"])
p("C27","Too many indices never return data","Indexing a view with more indices than dimensions always raises (AttributeError on the view itself because of a wrong attribute name in the error message, IndexError on corner views) and never reads or writes data. The one exception is a single integer on a quantity without dimensions, which is ignored.","all quantities and index tuples","error paths over all ranks of arrays",["fv3gfs/util/quantity.py:BoundedArrayView._get_compute_index","fv3gfs/util/quantity.py:BoundaryArrayView._get_array_index"])
p("C28","Corner and interior views are relative to the named corner","view.northwest[...] etc. address data relative to that corner of the compute domain in both horizontal dimensions and relative to the origin in others; view.interior measures starts from the beginning and stops from the end of the domain; sel by dimension name gives the same points regardless of dimension order.","all quantities, all dimension orders, all integer offsets that stay inside the array","all shapes and offsets",["fv3gfs/util/quantity.py:BoundaryArrayView","fv3gfs/util/_boundary_utils.py:_get_offset"])
p("C29","Boundary regions are inside the array, of matching size, and disjoint","For every boundary the points to send lie in the compute domain (when the point count does not exceed it), the points to receive lie outside it, both have the same shape, and the receive regions of different boundaries are disjoint; a region leaving the array is refused with OutOfBoundsError, never silently clipped.","all quantities, boundary types, point counts","all shapes and origins",["fv3gfs/util/_boundary_utils.py:get_boundary_slice","fv3gfs/util/boundary.py:SimpleBoundary"])
p("C30","Transposing a quantity permutes data, dims, origin and extent together","transpose gives a quantity in which every element is found under the same named coordinates, transposing back is the identity, and selecting by name is unaffected; unknown, ambiguous or unmatched dimension requests raise ValueError.","all quantities, all target orders (names or alternatives)","all dimension counts and permutations",["fv3gfs/util/quantity.py:Quantity.transpose","fv3gfs/util/quantity.py:_collapse_dims"])
p("C31","Quantity construction validates its arguments","Constructing a Quantity succeeds iff dims, origin and extent have as many entries as the array has dimensions; defaults make the compute domain the remainder of the array. Plain lists and numbers are advertised as data but are always rejected, with AttributeError (ValueError if an explicit extent is given and lengths mismatch). Extents exceeding the array are accepted.","all arguments","all argument combinations",["fv3gfs/util/quantity.py:Quantity.__init__"])
p("C32","Rotations compose as rotations","rotate_scalar_data by a then b quarter turns equals rotating by a+b (modulo 4, also negative), for data with both horizontal dimensions in any position; a rotation by k is undone by -k; rotate_vector_data likewise. For data along one horizontal dimension it holds if the dimension is renamed (x to y and back) along with odd turns.","all integers a, b; all shapes, all dims","all shapes, positions and turn counts",["fv3gfs/util/rotate.py:rotate_scalar_data","fv3gfs/util/rotate.py:rotate_vector_data"])
p("C33","Boundary.rotate does not rotate for odd turns","Boundary.rotate(y, x) is documented by its class to rotate vector data in place; because of aliasing and local rebinding it sets both arrays to minus the original x for one turn and does nothing for three turns; 0 and 2 turns are correct.","all data, all rotation counts","no test calls it",["fv3gfs/util/boundary.py:Boundary.rotate"])
p("C34","Corner filling copies the value met when walking along the stencil direction","fill_scalar_corners sets, on ranks at tile corners, the point a cells (x) and b cells (y) outside the corner to the edge-halo value found b cells outside and a cells along the other edge as in the module's figure, for 'x' and 'y' directions, cell-centred and interface; other points and ranks not at a corner are unchanged; wrong dimension order raises ValueError, fewer than two dimensions IndexError and another direction TypeError.","all layouts, ranks, halo widths fitting the array, extents, data, extra dimensions","all sizes and data",["fv3gfs/util/_corners.py:fill_scalar_corners"])
p("C35","Allocated quantities have room for their halo","Quantities from QuantityFactory/SubtileGridSizer always satisfy: origin and extent fit, at least n_halo points on both sides in each horizontal dimension, interface extents are one larger, all staggerings share one shape; hence halo updates with up to n_halo points never go out of bounds. Unknown dimension names raise KeyError.","all sizer parameters, dims lists","all parameters and dims",["fv3gfs/util/initialization/sizer.py:SubtileGridSizer","fv3gfs/util/initialization/allocator.py:QuantityFactory"])
p("C36","Live buffers never alias","However contexts are entered and left (nested, interleaved, left by exceptions), array_buffer never hands out an array that another live context holds, and always hands out one created with the requested allocator, shape and dtype.","all histories of enter, exit and exception","a property of every history",["fv3gfs/util/buffer.py:array_buffer"])
p("C37","Send and recv buffers copy faithfully","send_buffer always yields an array with the contents of its argument and leaves the argument unchanged; after recv_buffer is left normally the target holds exactly what was put in the buffer; left by an exception a non-contiguous target is unchanged. Stale contents of recycled buffers never reach the user's array unless the body fails to fill the buffer.","all arrays, all histories of the cache","a property of every cache history",["fv3gfs/util/buffer.py:send_buffer","fv3gfs/util/buffer.py:recv_buffer"])
p("C38","Timer accounts for exactly the completed intervals","After any sequence of operations, times[name] is the sum of the durations and hits[name] the number of the start/stop pairs of that name completed while enabled since the last reset; double starts raise ValueError, unmatched stops KeyError, and a failed call changes nothing; a timer with running clocks is always enabled.","all operation histories and clock readings","every history",["fv3gfs/util/_timing.py:Timer"])
p("C39","A NullTimer never records anything","Whatever is called on a NullTimer, its times and hits stay empty, enabled is False and enable raises.","all operation histories","every history",["fv3gfs/util/_timing.py:NullTimer"])
p("C40","An exception inside a timed block leaves the clock running","The example claims the clock context manager always stops the clock even if the block raises; in fact after an exception the clock stays running, timing the same name again raises ValueError and disable raises RuntimeError until stop is called.","all timers, names","no test raises inside a clock block",["fv3gfs/util/_timing.py:Timer.clock","examples/mpi/global_timings.py"])
p("C41","ZarrMonitor stores exactly the sequence of states","After all ranks store a sequence of consistent states whose variables have both horizontal dimensions, under every interleaving of their operations on the store all ranks come to an end without errors; the array of each variable has the number of stores as its first axis, and at each time, tile and point holds the value of the rank owning that point (greatest rank for shared points) in that store.","all layouts, dims, numbers of stores, data, all orders in which ranks write","all sizes, histories and write orders",["fv3gfs/util/zarr_monitor.py:ZarrMonitor.store","fv3gfs/util/zarr_monitor.py:_ZarrVariableWriter.append"])
p("C42","Concurrent ranks never write the same zarr chunk","The chunk shape is such that the regions written by two different ranks (or at two different times) never intersect the same chunk, so unsynchronised chunk read-modify-write cannot lose data. This holds for variables with both horizontal dimensions; a variable lacking one is written by several ranks to the same points, and which values remain depends on the schedule.","all layouts, dims, extents, pairs of ranks","lost updates are races",["fv3gfs/util/zarr_monitor.py:array_chunks"])
p("C43","States with different names are rejected before anything is written","After the first store, a state whose names differ from the first state's (plus 'time') raises ValueError and leaves the store unchanged. The first state is accepted without 'time', but then storing the same names again is refused.","all states and histories","all name sets and histories",["fv3gfs/util/zarr_monitor.py:ZarrMonitor._check_writers"])
p("C44","A failed store leaves variables misaligned in time","If storing a later state fails part-way (changed attributes of a variable or calendar of time), variables with smaller names have already been appended; after the next successful store the time axes of the variables differ. Storing the refused state again is accepted silently, since the array has already been enlarged; with several ranks the others wait forever for the root.","all states; a concrete history","a property of histories with failures",["fv3gfs/util/zarr_monitor.py:ZarrMonitor.store"])
p("C45","Nudging moves the compute domain towards the reference and nothing else","apply_nudging replaces each nudged variable's compute-domain value s by s + (r - s)/tau*dt, leaves halos, other variables and the reference untouched, returns tendencies (r - s)/tau with units suffixed ' s^-1', and raises without modifying the state if a name is missing. In exact arithmetic dt = tau gives r, and 0<=dt<=tau gives a value between s and r.","all states, references, timescales, steps","all values",["fv3gfs/util/nudging.py:apply_nudging"])
p("C46","Restart variables are renamed without loss","map_keys keeps every value of the file under its standard name if it has one and under its own name otherwise, provided no two names collide; the result contains nothing else.","all dictionaries and name maps","all dictionaries",["fv3gfs/util/_legacy_restart.py:map_keys"])
p("C47","Restart names in the property table are not unique","A variable's standard name is looked up by restart name; the built-in table maps several standard names to the same restart name (sfcflw, sfcfsw, topflw, topfsw), so only the last of each is ever produced when loading. All other standard names are obtained from their restart name.","all 87 entries of the table","the table is data no test scans",["fv3gfs/util/_properties.py:RESTART_PROPERTIES","fv3gfs/util/_legacy_restart.py:_get_restart_standard_names"])
p("C48","only_names restricts what a restart load returns","With only_names the loaded state contains exactly those requested names which are present with units in the files (and 'time' only if requested), each with the dims and units of the property table.","all files and requests","all dictionaries",["fv3gfs/util/_legacy_restart.py:load_partial_state_from_restart_file","fv3gfs/util/_legacy_restart.py:open_restart"])
p("C49","capture_stream restores the stream only on normal exit and leaks a descriptor","After normal exit the captured stream's descriptor refers to the original file again and the output written inside is returned; on an exception it keeps pointing to the temporary file; each use leaves one duplicated descriptor open. A block which closes that duplicate makes the exit raise OSError with the stream still redirected.","all descriptor tables, numbers of uses, outputs","histories of uses and crash points",["fv3gfs/util/_capture_stream.py:capture_stream"])
p("C50","Unit comparison is an equivalence ignoring surrounding whitespace","units_are_equal is reflexive, symmetric and transitive, true exactly when the strings agree after removing leading and trailing whitespace; ensure_equal_units raises UnitsError exactly otherwise.","all strings","all strings",["fv3gfs/util/units.py"])
p("C51","DummyComm delivers point-to-point messages in order and by value","With DummyComm, the k-th receive from a source gets a copy of the k-th array sent by it to this rank, regardless of later modification of the sent array; receiving with nothing sent raises ConcurrencyError or IndexError. Tags are ignored, so waiting on two concurrent updates in reverse order swaps their data.","all histories of sends and receives","every history",["fv3gfs/util/testing/dummy_comm.py:DummyComm"])
p("C52","DummyComm.Gather detects a missing rank only on first use","The first Gather on the root before all other ranks called raises ConcurrencyError; on later gathers a rank that has not called yet goes undetected and its previous data is used.","all histories","histories of collective calls",["fv3gfs/util/testing/dummy_comm.py:DummyComm.Gather"])
p("C53","On a non-square layout only the first halo update raises","The first halo update on a cubed-sphere communicator whose layout is not square raises NotImplementedError; every later one on the same communicator returns normally without sending or receiving anything.","all non-square layouts, ranks, quantities, sequences of calls","requires catching the exception and calling again",["fv3gfs/util/communicator.py:CubedSphereCommunicator.boundaries","fv3gfs/util/partitioner.py:CubedSpherePartitioner._ensure_square_layout"])
p("C54","A halo update refused with OutOfBoundsError leaves the communicator unusable","After start_halo_update or start_vector_halo_update raised OutOfBoundsError on a rank, every later halo update with at least one point on that communicator raises, whatever its arguments, because the timer clock around the failing operation is still running.","all quantities, point counts, preceding successful calls and following calls","requires catching the exception and calling again",["fv3gfs/util/communicator.py:CubedSphereCommunicator.start_halo_update","fv3gfs/util/_timing.py:Timer.clock"])
p("C55","gather_state pairs variables by position, not by name","gather_state loops over each rank's own dictionary, so the k-th variable of every rank is gathered into the name the root has in position k. If ranks list the same names in different orders, variables are silently swapped on some ranks (two variables of the same shape are exchanged without any error).","all states, all dictionary orders","tests build all dictionaries in the same order",["fv3gfs/util/communicator.py:Communicator.gather_state"])
p("C56","Scattering nothing blocks every other rank","scatter or scatter_state without a quantity or state on the root raises TypeError on the root before any communication, so under every schedule all other ranks wait forever in their first collective call.","all communicator sizes, all arguments on the other ranks, all schedules","a hang cannot be asserted by a test",["fv3gfs/util/communicator.py:Communicator.scatter","fv3gfs/util/communicator.py:Communicator.scatter_state"])
p("C57","A receive quantity of another shape is filled in C order","scatter checks only that the receive quantity has room: a receive quantity whose compute domain has another shape (or dimension order) but the same number of points is accepted silently and filled with the rank's part in C order.","all quantities, layouts, dims, receive shapes with the same number of points","tests pass matching shapes only",["fv3gfs/util/communicator.py:Communicator.scatter","fv3gfs/util/buffer.py:recv_buffer"])
p("C58","DummyComm.bcast and Scatter hand out the root's values by position","The k-th bcast (or Scatter) call of a rank, counting calls that raised, gets the root's k-th value, or raises if the root has not provided it yet. The rank's counter is advanced before the value is read, so after a call made too early a retry skips a value for good.","all histories of calls by all ranks","every history, including retries after errors",["fv3gfs/util/testing/dummy_comm.py:DummyComm._get_buffer","fv3gfs/util/testing/dummy_comm.py:DummyComm.bcast","fv3gfs/util/testing/dummy_comm.py:DummyComm.Scatter"])
p("C59","DummyComm.Split makes every rank a root of its own","Split called on each rank's own communicator object, as the cubed-sphere communicator does, makes each rank rank 0 of a new communicator of size 1; ranks are numbered in one communicator only if they call Split on one shared object.","all ranks, colors, orders of calls","tests with the dummy communicator do not look at the numbering of tile communicators",["fv3gfs/util/testing/dummy_comm.py:DummyComm.Split"])
p("C60","Ranks get distinct file suffixes","get_rank_suffix gives different strings to different ranks of a job whose size is a positive multiple of six, also beyond the four digits it pads to: '.tileN.nc' for six ranks, '.tileN.nc.CCCC' otherwise.","all job sizes, pairs of ranks","tests list a few ranks",["fv3gfs/util/_legacy_restart.py:get_rank_suffix"])
p("C61","open_restart gives every rank its part of its own tile's files","If the root rank of a tile can load the tile's files, then under every schedule open_restart returns on all ranks of the tile: each variable loaded on the root arrives as the rank's own part (in the quantities of to_state where given, halo untouched), the time is the root's, variables of to_state not in the files are unchanged. The files are NAME.tileT.nc and coupler.res, T counted from 1, with the label and a dot before the name if there is one, below the directory in the sense of os.path.join.","all file systems, layouts, tiles, requests, states, schedules","all files, sizes and schedules",["fv3gfs/util/_legacy_restart.py:open_restart","fv3gfs/util/communicator.py:Communicator.scatter_state"])
p("C62","A missing or damaged restart file blocks the other ranks of the tile","If a required restart file of a tile is missing or unreadable, loading raises on the tile's root before any communication, so under every schedule the other ranks of the tile wait forever; optional files (sfc_data, phy_data) are skipped when missing.","all file systems, layouts, requests, schedules","a hang cannot be asserted by a test",["fv3gfs/util/_legacy_restart.py:open_restart","fv3gfs/util/_legacy_restart.py:restart_filenames"])
p("C63","only_names must not be a one-shot iterator","only_names is annotated Iterable, but is searched repeatedly with 'in': with an iterator every search consumes names, so variables are silently not loaded which the same names in a list would load; it never loads more than the list would.","all states and name sequences; a concrete loss","tests pass lists",["fv3gfs/util/_legacy_restart.py:load_partial_state_from_restart_file","fv3gfs/util/_legacy_restart.py:open_restart"])
p("C64","The date of coupler.res","get_current_date_from_coupler_res returns a date exactly if the first line starts with an integer 1 to 4 naming a calendar and the third line with six integers making a date of that calendar; that date is returned and all other text is ignored.","all files","all texts",["fv3gfs/util/io.py:get_current_date_from_coupler_res"])
p("C65","Tracer properties extend but never override the built-in table","With tracer_properties whose names are not in the built-in table, every built-in name keeps its properties and every built-in restart name its standard name; other restart names get the tracer's name. A tracer with a built-in restart name is silently never loaded under its name.","all tracer tables","all tables",["fv3gfs/util/_legacy_restart.py:open_restart"])
p("C66","A written state is read back without halos","write_state accepts exactly the states which have a time, in which every dimension has one length, 'time' is not a dimension, and names of dimensions are used only for quantities along one dimension of their own or for non-scalars along others; it raises ValueError otherwise and touches no file. What read_state returns for an accepted state with units of plain numbers has the same time and the same dims, units and compute-domain values under the same names, with origin 0: halos are not kept, and other files are unchanged.","all states, files, orders in which variables are stored","all states",["fv3gfs/util/io.py:write_state","fv3gfs/util/io.py:read_state","fv3gfs/util/_xarray.py:to_dataset"])
p("C67","Some states are written but not read back","A quantity with the name of a dimension of the state (a coordinate such as 'x') is in the file but silently missing in what read_state returns. A state with a quantity in units of durations such as 'seconds' or 'days', or with units containing 'since', is written without complaint, but read_state raises ValueError for the whole file.","all states","tests write one kind of state",["fv3gfs/util/io.py:read_state","fv3gfs/util/quantity.py:Quantity.from_data_array"])
p("C68","What read_state accepts","read_state returns a state exactly if all variables other than coordinates and time have units of plain numbers and a variable 'time' is a single date; the state then has exactly the variables which are not coordinates, and a time exactly if the file has one. In all other cases it raises ValueError, or OSError if there is no such file.","all files","all files",["fv3gfs/util/io.py:read_state","fv3gfs/util/io.py:_extract_time"])
p("C69","datetime64_to_datetime is exact only near 1970","The date is divided by a second as float64 before it is converted, so microseconds survive only for dates less than 2^33 seconds from 1970 (1697 to 2242), or 2^32 seconds (1833 to 2106) if given in nanoseconds: there the result is exact to the microsecond (within one microsecond for nanoseconds which are no whole microseconds). The first later times come out wrong by a microsecond. Whole seconds are exact for all years 1 to 9999, and other years and NaT raise ValueError.","all dates in units from days to nanoseconds","the boundary is at one particular microsecond in 2242",["fv3gfs/util/time.py:datetime64_to_datetime"])
p("C70","datetime64_to_datetime never reorders dates","Of two dates in the same unit the earlier one never gives the later datetime, also where the conversion is not exact.","all pairs of dates","all pairs of dates",["fv3gfs/util/time.py:datetime64_to_datetime"])
p("C71","Flipping, transposing and rotating a tile moves its ranks accordingly","fliplr_rank, rotate_rank and the underlying functions send the rank in row J and column I to the rank which then is in its place; ranks of other tiles raise IndexError, more than one rotation NotImplementedError. On square layouts a rotation is clockwise, four of them do nothing, flips and transposition undo themselves and two of them in a row make the rotation. On any other layout some rank raises IndexError when rotated, and some when transposed.","all layouts, all ranks","numpy searches arrays for the rank; tests list a few cases",["fv3gfs/util/partitioner.py:TilePartitioner.fliplr_rank","fv3gfs/util/partitioner.py:TilePartitioner.rotate_rank","fv3gfs/util/partitioner.py:rotate_subtile_rank","fv3gfs/util/partitioner.py:transform_subtile_rank"])
p("C72","New axes in the index of a view take the wrong origins","view[None] with j new axes in front clips each remaining axis to the origin and extent of the dimension j places further on and shows the last j dimensions with their halos; so it is never the compute domain with new axes if the last dimension has a halo. The views of corners and view.interior refuse new axes with TypeError, reading and writing.","all quantities with at least as many dimensions as new axes","tests index with integers and slices only; the result has plausible shape and values",["fv3gfs/util/quantity.py:BoundedArrayView._get_compute_index","fv3gfs/util/quantity.py:BoundaryArrayView._get_array_index","fv3gfs/util/_boundary_utils.py:shift_boundary_slice"])
p("C73","Reading values does not disturb a quantity unless it has no dimensions","However often values was read and whatever was done with views before, assigning to the view of a quantity with dimensions works as if values had not been read; the array returned can never be assigned to and follows the compute domain. Reading values of a quantity without dimensions makes the quantity itself read-only for ever.","all quantities, all histories of reading values, indexing and assigning","a property of all histories; tests read values once of quantities with dimensions",["fv3gfs/util/quantity.py:Quantity.values","fv3gfs/util/quantity.py:BoundedArrayView.__getitem__"])
p("C74","sel ignores names which are no dimensions","The result of sel, on the view and on corner views, depends only on the arguments named after dimensions of the quantity: a misspelt name, or x for a quantity on x_interface, selects everything. On the view, each dimension is indexed with the argument of its name.","all quantities and keyword arguments","silent; tests use valid names",["fv3gfs/util/quantity.py:Quantity.sel","fv3gfs/util/quantity.py:BoundaryArrayView.sel"])
p("C75","Halo updates and local computation give the result of the undivided sphere","Let all ranks alternate between halo updates of n points and a local computation whose value at a point depends on values at most n points away along one horizontal axis, at any level, and on the point's place. Under every schedule the compute domains then hold, after any number of steps, what the same rules give for the field on the whole sphere; for cell centres this is the same for every square layout.","all rules, numbers of steps, fields, layouts, halo widths, schedules","tests compare no decompositions, and only for some sizes",["fv3gfs/util/communicator.py:CubedSphereCommunicator.halo_update","fv3gfs/util/communicator.py:CubedSphereCommunicator.start_halo_update"])
p("C76","A scattered, stepped and gathered quantity does not depend on the layout","Scattering a global quantity of cells to quantities with halos, computing in steps with halo updates, and gathering gives the same global compute domain for all layouts which divide the tiles evenly, under every schedule.","all quantities, rules, layouts, contents of halos and receive buffers, schedules","a test has one layout",["fv3gfs/util/communicator.py:Communicator.scatter","fv3gfs/util/communicator.py:CubedSphereCommunicator.halo_update","fv3gfs/util/communicator.py:Communicator.gather"])
p("C77","Updates tested on DummyComm behave as under MPI","If one thread makes each call of a program of updates on all ranks, in any order of the ranks, and waits for updates in the order in which they were started, every call succeeds on DummyComm and the arrays end as they do under MPI under every schedule. A blocking update raises ConcurrencyError on the rank which makes it first. Waiting out of turn gives other data on DummyComm than under MPI.","all programs, layouts, arrays, orders of the ranks within a call","the tests are these programs: they cannot show that their stand-in for MPI is faithful",["fv3gfs/util/testing/dummy_comm.py:DummyComm","fv3gfs/util/communicator.py:CubedSphereCommunicator.start_halo_update","fv3gfs/util/communicator.py:HaloUpdateRequest.wait"])
p("C78","Halo updates and collective operations can be mixed on one communicator","A program may start halo updates, use collective operations of all ranks and of the ranks of its tile (scatter, gather, bcast on the communicator and on its tile communicator), compute locally and wait for the updates in any order, as long as all ranks make the same calls. Under every schedule, with any buffering of messages and any synchronisation by collective calls, all ranks end, with the arrays and results the operations give one after the other.","all programs of such calls, layouts, arrays, schedules","interleavings of messages and collective calls of many ranks",["fv3gfs/util/communicator.py:CubedSphereCommunicator","fv3gfs/util/communicator.py:CubedSphereCommunicator.tile","fv3gfs/util/communicator.py:HaloUpdateRequest.wait"])
p("C79","The tile communicator","On a cubed-sphere communicator, tile gives every rank a communicator of the ranks of its own tile, in which they have their order; further accesses give the same one without communication. The first access is a collective call of all ranks of the cubed sphere: if one rank makes none, the ranks which access tile never get past it.","all layouts, ranks, schedules, other activity of the absent rank","the test double makes each rank a communicator of its own (C59); a hang cannot be asserted",["fv3gfs/util/communicator.py:CubedSphereCommunicator.tile","fv3gfs/util/communicator.py:CubedSphereCommunicator._initialize_tile_communicator"])
p("C80","open_restart on the cubed sphere: tiles succeed and fail separately","On all ranks of a cubed sphere at once, open_restart returns on the ranks of every tile whose files can be loaded, with their parts of the data; where a tile's files cannot be loaded, its first rank raises and the other ranks of that tile never return, under every schedule, while the other tiles finish.","all file systems, layouts, requests, states, schedules","all files, sizes and schedules",["fv3gfs/util/_legacy_restart.py:open_restart","fv3gfs/util/communicator.py:CubedSphereCommunicator.tile"])
p("C81","Scatter, step, gather as one program","One program on one communicator which scatters a global quantity of cells, alternates halo updates and local computations and gathers the result ends under every schedule, and what rank 0 gathers is the same for all layouts which divide the tiles evenly.","all quantities, rules, layouts, contents of halos and receive buffers, schedules","a test has one layout and one schedule",["fv3gfs/util/communicator.py:Communicator.scatter","fv3gfs/util/communicator.py:CubedSphereCommunicator.halo_update","fv3gfs/util/communicator.py:Communicator.gather"])
p("C82","Which memory quantities use","A quantity made without a gt4py backend shows the array (or storage) it was given, whatever is written later through either; one made from an array with a backend gets a copy, with equal contents, that no earlier object shares. The transpose of a quantity without backend always shows the quantity's data, transposed; that of a quantity with a backend is a copy. Writing through objects that do not share memory never changes what an object shows. quantity.storage and quantity.data always show the same, quantity.storage raises TypeError exactly if there is no backend, asking for a backend with a storage as data raises TypeError and changes nothing, and the default origin of a storage made by the constructor is the quantity's origin, whereas storages of QuantityFactory.from_backend have default origin zero whatever the halo.","all histories of making arrays, making quantities from arrays, data and storages with and without backends, transposing, and writing through arrays, data, storages and views, including attempts that raise; any behaviour of gt4py in refusing to allocate","tests look at one quantity right after it was made, and need gt4py; sharing shows up only in later writes through other objects",["fv3gfs/util/quantity.py:252-327","fv3gfs/util/quantity.py:380-417","fv3gfs/util/quantity.py:477-519","fv3gfs/util/initialization/allocator.py:11-68"])
p("C83","A store is written by one monitor only","Monitors constructed in mode 'w' on any store, or in mode 'a', 'r+' or 'w-' on one they can open and find empty, store states as on an empty store under every schedule; in mode 'w' nothing of the old contents remains. In mode 'a' or 'r+' on a store with an array named like a variable of the first state, appending never works: no rank gets through its stores without an error, and if it is the alphabetically first name the root raises ValueError and all other ranks wait forever. In mode 'r' the first store raises on the root and nothing is written; where the group cannot be opened the root's constructor raises, the store is unchanged and the other constructors never return.","all modes, stores, numbers of ranks, states, schedules and choices of synchronising broadcasts","tests open new stores in mode 'w' with mock communicators",["fv3gfs/util/zarr_monitor.py:ZarrMonitor.__init__","fv3gfs/util/zarr_monitor.py:_ZarrVariableWriter._init_zarr"])
p("C84","Waits and updates that do not match","A rank which calls wait() twice on the request of an update never ends, whatever the other ranks do and even if all messages are buffered. A rank which waits for an update that a rank it receives from has not started (counted by the tags that updates use) never ends. A rank whose sends are not buffered and who waits for an update never ends if a rank receiving from it does not wait for that update, though it started the same updates. Updates of different ranks belong together by their number only: if ranks start the same kinds of updates with different quantities (for instance two quantities in different orders), the program completes and the halos of the k-th quantity of a rank are filled from the k-th quantities of the others.","all programs of updates, waits and local computations (different ones on each rank), layouts, schedules and choices of which sends are buffered","tests run ranks one after the other with a mock communicator, where nothing blocks; a hang is not an assertion",["fv3gfs/util/communicator.py:HaloUpdateRequest","fv3gfs/util/communicator.py:CubedSphereCommunicator.start_halo_update","fv3gfs/util/communicator.py:CubedSphereCommunicator._get_halo_tag"])
p("C85","Clocks of the communicator","The timer of a communicator counts, after any program of updates, synchronisations and waits, one hit of pack and Isend for each message in scalar and vector updates one more of pack for each boundary and one of unpack for each receive that is prepared, and in wait() one of Recv for each receive and two of unpack if the array it fills is not contiguous; none of these clocks is left running, and clocks that the user runs under other names show what they would show alone. The timer does not influence what is sent or received. Exceptions are those of C54 with an enabled timer. With a disabled timer, or if the caller stops the clocks pack and unpack after each exception, every later update that is possible works and every impossible one raises OutOfBoundsError. A clock that the user has started under the name pack or Isend makes the next update raise ValueError before any message is sent, unpack after all messages of a halo update have been sent, and Recv makes wait() raise ValueError before anything is received.","all programs of updates, waits and calls of the timer, layouts, ranks, clock readings, contiguity of arrays","timings are only tested for the Timer itself; hits and leftover clocks after exceptions are not looked at",["fv3gfs/util/communicator.py:Communicator","fv3gfs/util/communicator.py:CubedSphereCommunicator.start_halo_update","fv3gfs/util/communicator.py:HaloUpdateRequest.wait","fv3gfs/util/buffer.py:recv_buffer","fv3gfs/util/_timing.py:Timer"])
p("C86","A model made of scalars and vectors","A program which repeatedly starts the halo updates of all its scalar and vector quantities, waits for all of them, computes new values in the compute domains from values of all quantities around each point, and synchronizes the interfaces of vectors on the D grid, ends under every schedule, with the values the same rules give on the sphere as a whole: components of vectors beyond the edge of a tile appear with the direction and sign they have as seen from this tile, and points on edges of tiles have the value computed by the tile for which they are on the south or west edge. The result does not depend on the layout.","all layouts, tile sizes, numbers of steps, rules, scalars and vectors with any staggering and order of dimensions, initial values, schedules, buffering","tests update one quantity at a time and look at halos, never at what a program computes from several quantities on several layouts",["fv3gfs/util/communicator.py:CubedSphereCommunicator.start_halo_update","fv3gfs/util/communicator.py:CubedSphereCommunicator.start_vector_halo_update","fv3gfs/util/communicator.py:CubedSphereCommunicator.start_synchronize_vector_interfaces","fv3gfs/util/communicator.py:HaloUpdateRequest.wait"])
p("C87","Communicators of tiles distribute and collect","scatter and gather of communicator.tile work on all tiles at once without regard to each other and under every schedule: each rank receives its part of what the first rank of its tile sent, and that rank gathers the data of its tile. These are the parts scatter of the whole communicator gives of a global quantity, and the tiles of what its gather gives. A program which receives data either way, computes in steps with halo updates, and collects either way, ends with the same result for each of the four ways and for every layout.","all layouts (square ones for halo updates), dimensions, sizes also differing between tiles, rules and numbers of steps, schedules, buffering","tests scatter and gather on one tile alone with a dummy communicator, never on the six communicators obtained from tile, and never compare both ways",["fv3gfs/util/communicator.py:CubedSphereCommunicator.tile","fv3gfs/util/communicator.py:CubedSphereCommunicator._initialize_tile_communicator","fv3gfs/util/communicator.py:Communicator.scatter","fv3gfs/util/communicator.py:Communicator.gather","fv3gfs/util/partitioner.py:TilePartitioner.subtile_slice"])
p("C88","A whole model run from scatter_state to gather_state","One program on one communicator which distributes a state of scalars and vectors with scatter_state, advances it in steps with the updates and synchronisation of C86, and collects it with gather_state ends under every schedule. Rank 0 then has every quantity with the values the rules give on the sphere as a whole, other entries of the state it received into are unchanged, its time is that of the scattered state where that has one, and all other ranks get their own argument back. For a scattered state in which points of two tiles which are one place agree, the gathered one agrees too and is the same for every layout.","all states with agreeing edges, staggerings, orders of dimensions, rules, numbers of steps, square layouts, receiving states, halos and junk in receive buffers, schedules, buffering","tests scatter or gather one state on a mock communicator and compute nothing in between",["fv3gfs/util/communicator.py:Communicator.scatter_state","fv3gfs/util/communicator.py:Communicator.gather_state","fv3gfs/util/communicator.py:CubedSphereCommunicator.start_halo_update","fv3gfs/util/communicator.py:CubedSphereCommunicator.start_vector_halo_update","fv3gfs/util/communicator.py:CubedSphereCommunicator.start_synchronize_vector_interfaces"])
p("C89","Updates and scatter do not check or convert the types of arrays","Messages are read as the type of the array that receives them. In a program of updates, arrays keep elements of their type if in each update the arrays of all ranks, and both components of a vector, have one type. If the two components of a vector have different types, every vector halo update and every synchronisation of interfaces puts elements of the other component's type into both of them, whatever the layout. scatter delivers elements of the type of the sent quantity also into a supplied quantity of another type.","all types, programs of updates and computations, layouts, sizes, staggerings, schedules","tests use one dtype and a communicator that assigns arrays, which converts",["fv3gfs/util/communicator.py:CubedSphereCommunicator.start_vector_halo_update","fv3gfs/util/communicator.py:CubedSphereCommunicator.start_synchronize_vector_interfaces","fv3gfs/util/communicator.py:Communicator.scatter","fv3gfs/util/buffer.py:recv_buffer"])
p("C90","What is set up from one namelist fits together","CubedSpherePartitioner.from_namelist and SubtileGridSizer.from_namelist of the same namelist with a square layout which divides the tiles evenly agree: quantities which QuantityFactory allocates with that sizer on the ranks, along x and y and any vertical dimensions in any order, can be updated with up to three halo points, as scalars or, with suitable staggering, as vectors, their interfaces can be synchronized, and they receive their parts of a quantity with the sizes of the namelist from scatter.","all namelists with square layouts for which the floating point arithmetic of sizes is exact, orders of dimensions, staggerings, contents, schedules","tests construct partitioners and sizers separately, from small layouts",["fv3gfs/util/partitioner.py:TilePartitioner.from_namelist","fv3gfs/util/partitioner.py:CubedSpherePartitioner.from_namelist","fv3gfs/util/initialization/sizer.py:SubtileGridSizer.from_namelist","fv3gfs/util/initialization/allocator.py:QuantityFactory"])
p("C91","The table of restart properties agrees with the file shipped beside it","RESTART_PROPERTIES has exactly the entries of fv3gfs/util/restart_properties.yml, in the same order and with the same dimensions, restart names and units, so that looking up any name gives what the file says, and the standard name which open_restart gives to a restart name is that of the last entry of the file having it. No entry repeats a dimension or has one the package does not know.","for all names","no test reads the file, and the tests of loading look at a few variables of one data set",["fv3gfs/util/_properties.py:13-450","fv3gfs/util/restart_properties.yml","fv3gfs/util/_legacy_restart.py"])
p("C92","The stored history of a model does not depend on the layout","Ranks advance a model of scalars and vectors in steps of halo updates, computation and interface synchronisation, and store the state they started from and the state after every step with ZarrMonitor. However updates and stores are scheduled, no store raises and all ranks finish, and the store then has for every name an array over all times and the whole sphere, with the dimensions and units of the quantities, which holds at every time and point the value the rules give on the undivided sphere, so it is the same for every number of ranks; the time array holds the times counted from the first.","for all rules looking within the halo, numbers of steps, variables, layouts, schedules and initial states","tests of ZarrMonitor store constant or random arrays rank by rank on a mock communicator and never compare layouts",["fv3gfs/util/zarr_monitor.py:ZarrMonitor.store","fv3gfs/util/zarr_monitor.py:_ZarrVariableWriter.append","fv3gfs/util/communicator.py:CubedSphereCommunicator.start_halo_update","fv3gfs/util/communicator.py:CubedSphereCommunicator.start_vector_halo_update","fv3gfs/util/communicator.py:CubedSphereCommunicator.start_synchronize_vector_interfaces"])
p("C93","A quantity without tile dimension is refused on every rank","Scattering on a cubed sphere communicator a quantity whose first dimension is not 'tile' raises NotImplementedError on every rank (IndexError if it has no dimensions) in every schedule: the metadata are broadcast before they are checked, so no rank is left waiting. The same holds for scatter_state, after the variables before the refused one have been distributed. Gathering into such a quantity raises on the root only, after all data have arrived, while the other ranks end normally with None.","all layouts, numbers of ranks, quantities, receive quantities, schedules and synchronisation","tests check only the exception of the partitioner, on one rank",["fv3gfs/util/communicator.py:Communicator.scatter","fv3gfs/util/communicator.py:Communicator.scatter_state","fv3gfs/util/communicator.py:Communicator.gather","fv3gfs/util/partitioner.py:CubedSpherePartitioner.subtile_extent","fv3gfs/util/partitioner.py:CubedSpherePartitioner.subtile_slice"])
p("C94","Repeated nudging converges, whoever does it","Any number of calls of apply_nudging with the same reference raise nothing and change each nudged variable as if every value was nudged by itself, and nothing else. Ranks which scatter a quantity and its reference, nudge their parts n times and gather the result end with exactly what nudging the whole n times gives, for every layout and arithmetic, rounding included. In exact arithmetic n calls multiply the distance to the reference by (1 - dt/tau)^n: for 0 <= dt <= tau it is at most the first distance divided by 1 + n dt/tau, for dt > 2 tau it grows without bound, which apply_nudging does not refuse.","all numbers of calls, states, references, timescales, timesteps, layouts, schedules","tests call apply_nudging once on one rank",["fv3gfs/util/nudging.py:apply_nudging","fv3gfs/util/nudging.py:get_nudging_tendencies","fv3gfs/util/communicator.py:Communicator.scatter","fv3gfs/util/communicator.py:Communicator.gather"])
p("C95","Nudging with a reference of another extent","apply_nudging never compares dimensions or extents: a reference whose axes, aligned from the last one, have the length of the quantity's axes or length one, and which has no more axes, is used for all points along the other axes, whatever its dimensions are called. The tendencies and the new values are those of nudging towards the reference spread over the quantity, for any number of variables at once, and nothing else changes. For a variable nudged by itself any other reference raises ValueError and the state is left as it was.","all quantities and references with at least one dimension, arithmetics, timescales, timesteps","tests use references of the same extent",["fv3gfs/util/nudging.py:apply_nudging","fv3gfs/util/nudging.py:get_nudging_tendencies"])
p("C96","Updates and stores in one execution","All ranks of a communicator make the same calls: they start halo updates, vector halo updates and interface synchronisation, wait on them, compute, and call ZarrMonitor.store with states made of their arrays, in any order, also while updates are under way. In every schedule, whichever sends are buffered and whichever broadcasts synchronise, every rank comes to an end without raising after a bounded number of steps, the arrays are those which the updates give without the stores, and the store holds every stored state at every point of the sphere, with times and attributes. In particular a model which stores its state at the start and after every step leaves in the store the evolution of the sphere, the same for all numbers of ranks.","all square layouts, states, programs, numbers of stores, interleavings of messages, collective calls and chunk writes","interleavings of messages with writes to a shared store cannot be enumerated; tests use one rank or a fixed order of ranks",["fv3gfs/util/zarr_monitor.py:ZarrMonitor.store","fv3gfs/util/zarr_monitor.py:_ZarrVariableWriter.append","fv3gfs/util/zarr_monitor.py:_ZarrTimeWriter.append","fv3gfs/util/communicator.py:CubedSphereCommunicator.start_halo_update","fv3gfs/util/communicator.py:HaloUpdateRequest.wait"])
p("C97","Nudging in float64","In IEEE binary64, with times as datetime.timedelta holds them (microseconds, up to 285 years) and timesteps up to the timescale, apply_nudging moves every point of the compute domain to state + (reference - state) * timestep / timescale up to 2^-49 times the larger magnitude of state and reference (plus 2^-1030), for magnitudes up to 2^900; nothing overflows. After n calls (up to 2^40) the value is that of n exact steps up to n * 2^-47 times a bound (at least 1) of the magnitudes: errors add up and are not amplified. A state equal to its reference is unchanged, and where the reference is nan the state becomes nan. It is not the case that the state stays between its old value and the reference, or reaches the reference in one step of the timescale.","all states, references, timescales, timesteps, numbers of calls and float64 values","rounding errors depend on all values; tests compare a few with a tolerance",["fv3gfs/util/nudging.py:apply_nudging","fv3gfs/util/nudging.py:_apply_tendencies","fv3gfs/util/nudging.py:get_nudging_tendencies"])
p("C98","Arrays sent and received have the same shape","For every boundary of every rank the array the neighbour sends (its send view turned by its rotation) has exactly the shape of the receive view: n_points across the boundary and the extent of the compute domain in all other dimensions, for scalars and for both components of vectors, also when the components change places. In synchronize_vector_interfaces all arrays sent and received have one shape. So DummyComm, which assigns whole arrays and would raise or broadcast otherwise, can stand in for MPI, which only counts elements. It is false of halo updates of a single quantity staggered in one horizontal direction: across a tile edge with a rotation the neighbour sends an array of another shape.","all square layouts, ranks, boundaries, extents, staggerings (the same in both directions for scalars, exchanged between components for vectors), dimension orders, numbers of points","tests update arrays of a few sizes and compare values; shapes are never compared",["fv3gfs/util/boundary.py:Boundary.send_view","fv3gfs/util/boundary.py:Boundary.recv_view","fv3gfs/util/communicator.py:CubedSphereCommunicator._Isend_halos","fv3gfs/util/communicator.py:CubedSphereCommunicator._Irecv_halos","fv3gfs/util/communicator.py:CubedSphereCommunicator._Isend_vector_halos","fv3gfs/util/communicator.py:CubedSphereCommunicator._Isend_vector_shared_boundary","fv3gfs/util/testing/dummy_comm.py:DummyComm.Recv"])
p("C99","Messages carry the elements of strided arrays in order","Arrays are views of memory with an offset and strides: indexing, flipping, exchanging and permuting axes (all that slices, halo views, rotations and transpose do) give offset, shape and strides such that every element lies where the corresponding element of the original array lies, and raise the same errors; views of a newly made array never have two elements in one place. is_c_contiguous is true exactly if the elements in row-major order are the memory from the first element on, is_contiguous and ensure_contiguous also accept column-major order. Whatever the strides, what send_buffer passes to MPI is the elements of the array in row-major order, and after recv_buffer the array has the received values in row-major order and no other memory than the buffer has changed; so a message between arrays of one shape moves every element to the element of the same index. The messages of halo updates, boundary slices turned by rotations, are such arrays. The equal parts of the buffer which MPI scatters from the root, or gathers at it, are the rows of the buffer belonging to the ranks.","all offsets, shapes, strides, item sizes, chains of views, memory contents and places of buffers","tests use a few shapes and the memory layouts numpy happens to produce, mostly with a dummy communicator which assigns arrays instead of copying memory",["fv3gfs/util/utils.py:is_contiguous","fv3gfs/util/utils.py:is_c_contiguous","fv3gfs/util/utils.py:ensure_contiguous","fv3gfs/util/utils.py:assign_array","fv3gfs/util/buffer.py:send_buffer","fv3gfs/util/buffer.py:recv_buffer","fv3gfs/util/rotate.py:rotate_scalar_data","fv3gfs/util/communicator.py:Communicator.scatter","fv3gfs/util/communicator.py:Communicator.gather"])
with open(os.path.join(os.path.dirname(os.path.dirname(os.path.abspath(__file__))),'properties.jsonl'),'w') as f:
    for x in P: f.write(json.dumps(x)+"\n")
print(len(P))
