{"id": "C01", "title": "Writing a field to .gkyl and loading it back is lossless", "statement": "If a dataset with a well-formed value array is written with the gkyl extension and the resulting file is opened again, the reader accepts the file and the new dataset has exactly the same number of cells per dimension, number of components, lower and upper bounds, and bit-for-bit the same values in the same order.", "quantifier": "every number of dimensions, every cell count and component count, every value array (arbitrary 64-bit patterns) and every pair of bounds", "why_tests_cant": "A test samples a few shapes; byte-offset bugs show up only for particular combinations of dimension count, component count and sizes.", "anchors": ["src/postgkyl/data/gdata.py:GData.write", "src/postgkyl/data/gkyl_reader.py:GkylReader._read_header", "src/postgkyl/data/gkyl_reader.py:GkylReader._read_t1t3_v1_domain", "src/postgkyl/data/gkyl_reader.py:GkylReader._get_data"]}
{"id": "C02", "title": "A field file laid out as the documented format is read correctly", "statement": "For every byte string laid out as documented for file type 1 (magic, version, type, metadata block of any length, real type, dimensions, cells, bounds, element size, size, data), in double precision, or in single precision with the bounds stored in single precision too, opening the file yields exactly the stored cells, bounds, component count, metadata and data, with the component index running fastest. (With the documented float64 bounds, single-precision files are misread.)", "quantifier": "all dimension counts, sizes, component counts, metadata lengths and data bytes", "why_tests_cant": "Only a handful of sample files exist; the header has variable-length parts so offsets depend on every size.", "anchors": ["src/postgkyl/data/gkyl_reader.py:GkylReader._read_header", "src/postgkyl/data/gkyl_reader.py:GkylReader._read_t1t3_v1_domain", "src/postgkyl/data/gkyl_reader.py:GkylReader._read_t1_v1_data"]}
{"id": "C03", "title": "A multi-range (distributed) field file is assembled correctly", "statement": "For every multi-range file, whatever the number, order and sizes of its ranges, each cell of the loaded array holds the data of the (last) stored range that covers it, and zero if no range covers it; hence when the ranges tile the domain the result is the same as loading the equivalent single-range file, independently of the order of the ranges.", "quantifier": "every list of in-domain ranges (any number, any order), any dimension, any data", "why_tests_cant": "The number of decompositions is unbounded; tests use one decomposition.", "anchors": ["src/postgkyl/data/gkyl_reader.py:GkylReader._read_t3_v1_data", "src/postgkyl/data/gkyl_reader.py:GkylReader._get_data"]}
{"id": "C04", "title": "A time-trace (dynvector) file with many appended chunks loads as the concatenation of the chunks", "statement": "For every double-precision dynvector file made of one or more appended chunks (as produced by restarts), the loaded time axis and the loaded values are exactly the concatenation of the chunks in file order, so the i-th time always belongs to the i-th row of values.", "quantifier": "any number of chunks, any chunk lengths (at least one row each), any metadata block per chunk, any component count", "why_tests_cant": "Restart histories are unbounded; a test uses one file.", "anchors": ["src/postgkyl/data/gkyl_reader.py:GkylReader._read_t2_v1"]}
{"id": "C05", "title": "Partial loading equals full loading followed by slicing", "statement": "Loading a field with per-dimension and component cuts given as an index k, or as a Python-style slice a:b with non-negative start and a positive or negative stop that selects at least one cell, gives exactly the sub-array Python slicing would give of the fully loaded array.", "quantifier": "all shapes, all combinations of cuts over dimensions and components, all data", "why_tests_cant": "The recursion that skips through the file depends on every combination of leading/trailing skips per dimension; the combinations are unbounded.", "anchors": ["src/postgkyl/data/gkyl_reader.py:GkylReader._get_block", "src/postgkyl/data/gkyl_reader.py:GkylReader._get_data", "src/postgkyl/data/gkyl_reader.py:GkylReader._read_t1t3_v1_domain"]}
{"id": "C06", "title": "Partial loading of a distributed field equals slicing the fully loaded field", "statement": "For a multi-range file and any in-range cuts, partial loading returns exactly the corresponding sub-array of the fully assembled field, even when the cut crosses range boundaries or misses some ranges entirely.", "quantifier": "every list of in-domain ranges, every combination of cuts, any dimension, any data", "why_tests_cant": "Cuts interact with each range differently (inside, partial overlap, miss); tests exercise one cut.", "anchors": ["src/postgkyl/data/gkyl_reader.py:GkylReader._get_data", "src/postgkyl/data/gkyl_reader.py:GkylReader._read_t3_v1_data"]}
{"id": "C07", "title": "A partial load reports the bounds and grid of the part it loaded", "statement": "After a partial load the reported bounds and the coordinate of every grid node are those of the same nodes of the full grid (exact arithmetic), and the grid has one more node than cells in every dimension.", "quantifier": "all bounds, cell counts, cuts and node indices", "why_tests_cant": "The bounds are recomputed arithmetically from offsets; a test checks one value.", "anchors": ["src/postgkyl/data/gkyl_reader.py:GkylReader._read_t1t3_v1_domain", "src/postgkyl/data/gkyl_reader.py:GkylReader.load"]}
{"id": "C08", "title": "Which partial-load cut strings follow Python slicing", "statement": "A cut string 'a:b' selects the same cells as Python's [a:b] when a is absent or non-negative and b is absent, negative, or positive and not beyond the end; 'k' selects cell k; b=0 loads up to the end instead of nothing; a negative single index such as '-1' is silently ignored and loads everything; a step is rejected; a negative start or a stop beyond the end does not behave as in Python.", "quantifier": "all integers a, b, k and all cell counts", "why_tests_cant": "The documented promise ('Python syntax is used... negative indices are also allowed') is about every string.", "anchors": ["src/postgkyl/data/gkyl_reader.py:GkylReader._read_t1t3_v1_domain"]}
{"id": "C09", "title": "Selecting by coordinate picks the cell that contains the coordinate", "statement": "On a strictly increasing grid of cell edges, selecting by a coordinate inside the domain returns the cell whose edges bracket it (lower edge < x <= upper edge, the first cell for its own lower edge); coordinates below or above the domain select the first or last cell.", "quantifier": "all increasing grids with at least one cell, all coordinates", "why_tests_cant": "Boundary and between-node coordinates form a continuum.", "anchors": ["src/postgkyl/data/idx_parser.py:_find_nearest_index", "src/postgkyl/data/idx_parser.py:idx_parser", "src/postgkyl/data/select.py:select"]}
{"id": "C10", "title": "Selection keeps grid and values consistent and returns the requested block", "statement": "For any in-range index, slice or coordinate cut per dimension, select returns values equal to the requested sub-block of the original values (with the cut dimensions kept), and a grid whose length in each dimension is again cells+1 (or equals the number of values for point data) holding exactly the edges of the selected cells; dimensions that were not cut are unchanged. On mapped grids (one coordinate array per dimension) every coordinate array and the values are cut to the same block along all axes for index, digit and bounded slice cuts; a coordinate cut is refused. An open slice ends at the length of the mesh's first axis, so cells of a longer axis are silently dropped.", "quantifier": "every dimension count up to six, every shape, every combination of in-range cuts, uniform and mapped grids", "why_tests_cant": "The index arithmetic differs for edge-centred and point grids and for each combination of cuts.", "anchors": ["src/postgkyl/data/select.py:select", "src/postgkyl/data/idx_parser.py:idx_parser"]}
{"id": "C11", "title": "Select does not change its source unless asked to, and successive selections compose", "statement": "Without overwrite the dataset is unchanged; selecting a:b and then c:d of the result equals selecting a+c:a+d of the original; selecting the whole range returns the same grid and values.", "quantifier": "all shapes and all in-range slices", "why_tests_cant": "A law over all pairs of slices.", "anchors": ["src/postgkyl/data/select.py:select"]}
{"id": "C12", "title": "What the textual slice 'a:b' means to select", "statement": "In select 'a:b' with non-negative integers selects cells a..b-1 as in Python; an absent start is 0 and an absent stop is the end; a negative stop -k counts from one past the number of grid nodes (so ':-1' keeps every cell, unlike Python and unlike partial loading); a three-part slice is rejected.", "quantifier": "all integers and grid sizes", "why_tests_cant": "A statement over every string of the accepted form.", "anchors": ["src/postgkyl/data/idx_parser.py:idx_parser", "src/postgkyl/data/idx_parser.py:_string_to_index"]}
{"id": "C13", "title": "The metadata a dataset reports always matches the arrays it holds", "statement": "After any sequence of push operations on any dataset, the reported number of cells, components, dimensions and bounds are those of the grid and values pushed last.", "quantifier": "every history of pushes with well-formed grid and values, starting from any loaded or empty dataset", "why_tests_cant": "Metadata is cached separately from the arrays, so staleness depends on the whole history.", "anchors": ["src/postgkyl/data/gdata.py:GData.push", "src/postgkyl/data/gdata.py:GData.set_values", "src/postgkyl/data/gdata.py:GData.set_grid", "src/postgkyl/data/gdata.py:GData.get_num_cells", "src/postgkyl/data/gdata.py:GData.get_bounds"]}
{"id": "C14", "title": "The text dump lists every cell exactly once, in row-major order, with its own centre and values", "statement": "Writing a dataset whose grid holds the cell edges as txt produces one line per cell; line i holds the centre coordinates and then all component values of the i-th cell in row-major order. The values are unchanged, but the dataset's own grid is replaced by the centres, so that a second dump of the same dataset, like any dump of data given at points, raises IndexError.", "quantifier": "all dimension counts, cell counts and component counts", "why_tests_cant": "The mixed-radix decomposition of the line number depends on every shape.", "anchors": ["src/postgkyl/data/gdata.py:GData.write"]}
{"id": "C15", "title": "Squeezed dimension count", "statement": "The squeezed number of dimensions a dataset reports equals the number of dimensions with more than one cell, for every order in which the single-cell dimensions appear.", "quantifier": "all cell-count vectors", "why_tests_cant": "The loop changes the bound it reports while running; all positions of length-one dimensions matter.", "anchors": ["src/postgkyl/data/gdata.py:GData.get_num_dims"]}
{"id": "C16", "title": "Iterating over datasets visits exactly the selected active datasets, in order", "statement": "Iterating over the data space visits, tag by tag in first-insertion order (or in the order requested) and within a tag in insertion order, exactly the datasets that are active (all of them when inactive ones are requested) and whose index is selected by the Python meaning of the index string; an index out of range or an unknown tag aborts instead of silently skipping.", "quantifier": "every data space, every tag list, every index, comma list or start:stop:step string", "why_tests_cant": "The index language and the activity flags combine without bound.", "anchors": ["src/postgkyl/commands/data_space.py:DataSpace.iterator"]}
{"id": "C17", "title": "activate leaves exactly the chosen datasets active; deactivate removes exactly the chosen ones", "statement": "After activate without --focused exactly the datasets picked by tag and index are active; with --focused the picked ones become active and the rest keep their status. After deactivate without --focused the picked ones are inactive and the rest keep their status. (deactivate --focused deactivates every dataset, because the operation named activate-all deactivates.) No dataset is added, removed, reordered or otherwise changed.", "quantifier": "every data space state, every tag and index specification", "why_tests_cant": "A statement over all states and selections.", "anchors": ["src/postgkyl/commands/status.py:activate", "src/postgkyl/commands/status.py:deactivate", "src/postgkyl/commands/data_space.py:DataSpace.activate_all", "src/postgkyl/commands/data_space.py:DataSpace.deactivate_all"]}
{"id": "C18", "title": "Datasets are never lost, renumbered or moved between tags by command chains", "statement": "For any sequence of adding, activating, deactivating, labelling and computing (in place, into a new tag, or over pairs) operations, a dataset once added under a tag stays retrievable under the same tag and index, as the same object with the same file name; a new dataset is a new object and goes behind those of its tag.", "quantifier": "every operation history", "why_tests_cant": "Quantifies over unbounded histories.", "anchors": ["src/postgkyl/commands/data_space.py:DataSpace.add", "src/postgkyl/commands/data_space.py:DataSpace.get_dataset", "src/postgkyl/commands/data_space.py:DataSpace.get_num_datasets"]}
{"id": "C19", "title": "Automatic labels distinguish the loaded files", "statement": "Whenever the loaded file names have the same number of underscore-separated parts, two datasets get the same automatic label only if their file names (without extension) are equal. For names with different numbers of parts this can fail.", "quantifier": "every list of file names", "why_tests_cant": "Uniqueness is a property of all sets of names.", "anchors": ["src/postgkyl/commands/data_space.py:DataSpace.set_unique_labels"]}
{"id": "C20", "title": "Command abbreviations resolve unambiguously", "statement": "A command word that is a full command name always runs that command, even if it is also a prefix of other names or the name of a file; otherwise a word that is a prefix of exactly one command runs it; a word that is a prefix of several is rejected; otherwise, if it matches a file, that file is queued and loaded; anything else is rejected, and in the rejected and command cases nothing is queued.", "quantifier": "every word, every command table, every file system content", "why_tests_cant": "Quantifies over all words and command tables.", "anchors": ["src/postgkyl/pgkyl.py:PgkylCommandGroup.get_command"]}
{"id": "C21", "title": "Local load options override global ones", "statement": "For each of the seven cut options and for the variable names and mapping files, load uses the local value when given, else the global value, else the default. This holds for the velocity-mapping file only when not both are given: if both are given the local velocity-mapping file is used as the position-mapping file.", "quantifier": "all combinations of present/absent local and global options", "why_tests_cant": "Combination table is checked for all values, not only samples.", "anchors": ["src/postgkyl/commands/load.py:_pick_cut", "src/postgkyl/commands/load.py:load"]}
{"id": "C22", "title": "Wildcard loads are ordered by frame number and skip restart files", "statement": "A wildcard load loads every matching file not containing 'restart' exactly once and no file containing 'restart'. When every matching name has the form stem_N.ext and no stem continues another one with an underscore, files with the same stem are loaded in increasing numeric frame order (frame 10 after frame 9). If one stem continues another one, sorting is off and the files come in file system order. (Patterns with brackets but without *, ? or ! are not expanded.)", "quantifier": "every set of matching file names", "why_tests_cant": "Lexicographic vs numeric ordering differs only for particular numbers; all file sets are quantified.", "anchors": ["src/postgkyl/commands/load.py:_crush", "src/postgkyl/commands/load.py:load"]}
{"id": "C23", "title": "Every file given on the command line is loaded once, in order", "statement": "For a chain mixing file names and other commands, the k-th load reads exactly the k-th file argument, so each file is loaded once and in command-line order. A chain in which some word runs load explicitly fails. One load creates one dataset per variable and file, variables outermost.", "quantifier": "every command chain", "why_tests_cant": "Depends on the history of the queue and its counter.", "anchors": ["src/postgkyl/pgkyl.py:PgkylCommandGroup.get_command", "src/postgkyl/commands/load.py:load"]}
{"id": "C24", "title": "ev evaluates reverse Polish expressions as ordinary expressions", "statement": "Evaluating the postfix form of any arithmetic expression over datasets and constants leaves exactly one result on the stack: the value of the expression, with the operators' operands in written order (the first-written operand is the left operand of - / and pow).", "quantifier": "every expression tree of any depth", "why_tests_cant": "Expression trees are unbounded.", "anchors": ["src/postgkyl/commands/ev.py:ev", "src/postgkyl/commands/ev.py:_data", "src/postgkyl/commands/ev.py:_command", "src/postgkyl/commands/ev_cmd.py:cmds"]}
{"id": "C25", "title": "ev broadcasts over datasets", "statement": "When an operator is applied to groups of datasets, the result has as many datasets as the larger group and the i-th result uses the i-th dataset of each group, repeating the last dataset of a shorter group (so a single dataset or constant applies to all).", "quantifier": "all group sizes, any operator", "why_tests_cant": "All combinations of lengths.", "anchors": ["src/postgkyl/commands/ev.py:_command"]}
{"id": "C26", "title": "Metadata of an ev result is what all inputs agree on", "statement": "Each metadata key of an ev result is present with value v exactly when some input has it and all inputs that have it agree on v (values compared by ==, so a nan, which differs from itself, is dropped even if all inputs have it). There is a result only if the last-written input having a key can be compared with every earlier one having it: an array of at least two entries after a tuple (cells as read from a file after those of a selected dataset) is an error, the other order is not; all other combinations of arrays, tuples, numbers compare without error.", "quantifier": "any number of inputs and any metadata dictionaries", "why_tests_cant": "All dictionaries and orders of inputs.", "anchors": ["src/postgkyl/commands/ev.py:_command", "src/postgkyl/commands/ev.py:_compare"]}
{"id": "C27", "title": "ev writes only where it should", "statement": "If the chain is an expression whose dataset references are all the same selection and no tag is given, exactly the selected datasets get the results, in order, and all other datasets keep their arrays, status and metadata; this needs the selection to lie under one tag and, when a tag is named, its selected datasets to be active (otherwise results go to the wrong datasets). With a tag the results are added as new datasets under it and no existing dataset changes. With several selections and no tag, existing datasets are only deactivated and the results are added under the last tag read. A chain without datasets is rejected. Operators are taken as functions of their operands (scale_zi_axis, which changes its operand, is treated separately).", "quantifier": "all data spaces, all chains of supported operators", "why_tests_cant": "State frame condition over all data spaces.", "anchors": ["src/postgkyl/commands/ev.py:ev"]}
{"id": "C28", "title": "ev arithmetic combines arrays of different shapes predictably", "statement": "Adding, subtracting, multiplying or dividing two datasets of the same shape acts element by element; a constant combines with every element and a single-component dataset with every component of the other, on either side; multiplication and division pair a one-component configuration-space dataset with the leading indices of a phase-space dataset (addition does not); addition and multiplication do not depend on operand order; the result has the grid with more dimensions.", "quantifier": "all shapes and values (exact arithmetic, nonzero divisors)", "why_tests_cant": "All shapes.", "anchors": ["src/postgkyl/commands/ev_cmd.py:add", "src/postgkyl/commands/ev_cmd.py:subtract", "src/postgkyl/commands/ev_cmd.py:mult", "src/postgkyl/commands/ev_cmd.py:divide"]}
{"id": "C29", "title": "collect orders frames by time and keeps each frame with its own time", "statement": "Collecting the active datasets of a tag gives one dataset whose leading axis is the nondecreasing list of their time stamps (reduced into the period if one is given) and whose i-th slab is the value array (or, with --sumdata, the sum over the cells) of the dataset with the i-th stamp; every active input appears exactly once; the inputs end up inactive and otherwise unchanged; other tags are not touched. The stamp is the time when that is not zero, else the frame number, else the position. A dataset without a time is an error. Without chunking, datasets of different shapes under one tag are an error (ValueError).", "quantifier": "any number of datasets and tags, any times (including equal times), any shapes, any sorting permutation returned by argsort", "why_tests_cant": "All permutations of input order.", "anchors": ["src/postgkyl/commands/collect.py:collect"]}
{"id": "C30", "title": "Chunked collect splits the frames without loss", "statement": "With a positive chunk length c, n frames are collected into ceil(n/c) datasets; all but the last hold exactly c frames; concatenating the chunks before sorting gives back the input frames in order, and each dataset is the sorted collection of its chunk.", "quantifier": "all n and all positive c", "why_tests_cant": "All n and c.", "anchors": ["src/postgkyl/commands/collect.py:collect"]}
{"id": "C31", "title": "DG interpolation fills every point of the refined mesh exactly once with the cell's own expansion", "statement": "Interpolating DG data with n points per cell and direction produces an array of n times the cells in each direction in which the point with sub-index k of cell i has the value sum_m M[k,m] q[i,m] of that cell's coefficients; every output point is produced by exactly one cell.", "quantifier": "all dimension counts, cell counts, n >= 2, all interpolation matrices and coefficients", "why_tests_cant": "Strided writes and Fortran-order sub-index are checked for all shapes.", "anchors": ["src/postgkyl/data/dg.py:_interpOnMesh"]}
{"id": "C32", "title": "The refined grid after interpolation matches the refined values", "statement": "The grid returned with interpolated values has exactly one more node than values in each direction, starts and ends at the original domain ends, and for uniform grids contains every original cell edge, each original cell being split in n equal parts.", "quantifier": "all uniform grids, cell counts and n", "why_tests_cant": "All sizes.", "anchors": ["src/postgkyl/data/dg.py:_makeMesh", "src/postgkyl/data/dg.py:_make1Dgrids"]}
{"id": "C33", "title": "Component extraction picks the right expansion coefficients", "statement": "For modal data the coefficients of field c are the contiguous block c*N..c*N+N-1 of the components, for nodal data they are the components c, c+E, c+2E,... (E fields, N nodes); the blocks for different fields are disjoint and together cover all components.", "quantifier": "all N, E, c", "why_tests_cant": "All sizes.", "anchors": ["src/postgkyl/data/dg.py:GInterp._getRawModal", "src/postgkyl/data/dg.py:GInterp._getRawNodal"]}
{"id": "C34", "title": "The tabulated basis sizes are the dimensions of the polynomial spaces", "statement": "For every supported dimension and order the tabulated number of basis functions equals the dimension of the serendipity, maximal-order or tensor polynomial space (one entry of the tensor table, 5 dimensions order 2, is wrong: 343 instead of 243).", "quantifier": "all entries of the tables, against a counting specification of the polynomial spaces", "why_tests_cant": "Tests use three entries.", "anchors": ["src/postgkyl/data/dg.py:num_nodesSerendipity", "src/postgkyl/data/dg.py:num_nodesMaximal", "src/postgkyl/data/dg.py:num_nodesTensor", "src/postgkyl/data/dg.py:_getnum_nodes"]}
{"id": "C35", "title": "The built-in modal bases are orthonormal", "statement": "For every tabulated modal basis (dimension, order, family) used for interpolation, the functions span the polynomial space of that family and are orthonormal over the reference cell up to 1e-14 (the rounding of the tabulated coefficients). Hence for every coefficient vector: the mean of the expansion is the first coefficient divided by 2^(dim/2), projecting the expansion back returns the coefficients, its squared norm is the sum of the squares of the coefficients, and only the zero vector has a vanishing expansion, each up to that rounding.", "quantifier": "all tabulated bases and all coefficient vectors", "why_tests_cant": "Thousands of hand-generated coefficients; tests touch a few bases at a few points.", "anchors": ["src/postgkyl/data/computeInterpolationMatrices.py:createInterpMatrix"]}
{"id": "C36", "title": "Interpolation evaluates the DG polynomial at sub-cell centres, and differentiation its derivative", "statement": "The interpolation point k of n in a cell is the centre of the k-th of n equal parts of the reference cell, lies strictly inside it, and matches the centre of the corresponding refined-grid cell. Every value of the interpolated array is the expansion of its cell's coefficients at that centre. Every value of the array differentiated along one direction is the derivative of the expansion with respect to the physical coordinate, on cells as wide as the first one in that direction. The derivative tables use the same basis functions as the interpolation tables. The gradient over all directions holds half the derivative in its first component, and cells of another width than the first are scaled by the width ratio.", "quantifier": "all tabulated modal bases, all coefficient arrays, all n, all cells and sub-cells", "why_tests_cant": "All n; thousands of table entries.", "anchors": ["src/postgkyl/data/computeInterpolationMatrices.py:createInterpMatrix", "src/postgkyl/data/computeDerivativeMatrices.py:createDerivativeMatrix", "src/postgkyl/data/dg.py:GInterpModal.differentiate"]}
{"id": "C37", "title": "Euler primitive variables invert the conserved variables", "statement": "For arrays of any shape whose cells hold the conserved variables of a density > 0, velocity and pressure (adiabatic index other than 1), every variable of the euler command (density, velocities, kinetic energy, pressure, temperature, sound speed, Mach number) is in every cell the primitive value or its defining relation; conversely the stored values are the conserved variables of what is returned; the number of moments is guessed only from 5 or 10 components; a missing component is an IndexError.", "quantifier": "all real states", "why_tests_cant": "A continuum of states.", "anchors": ["src/postgkyl/tools/prim_vars.py:get_density", "src/postgkyl/tools/prim_vars.py:get_vi", "src/postgkyl/tools/prim_vars.py:get_p", "src/postgkyl/tools/prim_vars.py:get_ke", "src/postgkyl/tools/prim_vars.py:get_mach"]}
{"id": "C38", "title": "Ten-moment pressure tensor extraction", "statement": "For arrays of any shape whose cells hold ten-moment data of a density > 0, velocity and pressure tensor, every variable of the tenmoment command is the original value (the scalar pressure a third of the trace); the array of the six tensor components succeeds exactly when no axis of one cell follows a longer axis and is a ValueError otherwise.", "quantifier": "all real states", "why_tests_cant": "A continuum of states.", "anchors": ["src/postgkyl/tools/prim_vars.py:get_pij", "src/postgkyl/tools/prim_vars.py:get_p"]}
{"id": "C39", "title": "MHD primitive variables", "statement": "For every array of MHD states with density > 0 (adiabatic index other than 1, mu0 not 0) the extracted pressure, magnetic pressure and velocity satisfy E = p/(gamma-1) + rho v^2/2 + B^2/(2 mu0) and are recovered from primitive values.", "quantifier": "all real states", "why_tests_cant": "A continuum of states.", "anchors": ["src/postgkyl/tools/prim_vars.py:get_mhd_p", "src/postgkyl/tools/prim_vars.py:get_mhd_mag_p", "src/postgkyl/tools/prim_vars.py:get_mhd_temp", "src/postgkyl/tools/prim_vars.py:get_mhd_mach"]}
{"id": "C40", "title": "Parallel and perpendicular pressure", "statement": "For every array of pressure tensors and non-zero magnetic fields the parallel pressure is b.P.b/|B|^2, plus twice the perpendicular pressure it is the trace, neither depends on the magnitude of the field, for a gyrotropic tensor p_perp I + (p_par - p_perp) bb they return the defining p_par and p_perp, and both are non-negative for positive semi-definite tensors; the ten-moment variants use field components 3 to 5.", "quantifier": "all real tensors and non-zero fields", "why_tests_cant": "A continuum of inputs.", "anchors": ["src/postgkyl/tools/pressure_diagnostics.py:get_p_par", "src/postgkyl/tools/pressure_diagnostics.py:get_p_perp"]}
{"id": "C41", "title": "Agyrotropy vanishes for gyrotropic plasmas", "statement": "Wherever the perpendicular pressure and the norm scale are positive: the Frobenius and Swisdak agyrotropy measures are zero for every gyrotropic pressure tensor; the Frobenius measure is the normalised Frobenius norm of the deviation, never negative, and zero only for gyrotropic tensors; the two measures are equal. Other names of measures are refused (one of the two choices of the command mom_agyro is such a name).", "quantifier": "all real tensors and non-zero fields", "why_tests_cant": "A continuum of inputs.", "anchors": ["src/postgkyl/tools/pressure_diagnostics.py:get_agyro"]}
{"id": "C42", "title": "Projection onto a direction field", "statement": "Rotating a three-component array parallel to a direction array gives the orthogonal projection: it is parallel to the direction, projecting twice changes nothing, the remainder is orthogonal to the direction and the squared length never grows; the result does not depend on the length of the direction vectors; another number of components is an error. perprotate and the commands parrotate and perprotate never deliver a result.", "quantifier": "all vectors and non-zero directions", "why_tests_cant": "A continuum of inputs.", "anchors": ["src/postgkyl/tools/parrotate.py:parrotate"]}
{"id": "C43", "title": "Grid integration is exact on piecewise constants and additive", "statement": "Integrating over a set of axes gives in every remaining cell the sum of value times width over those axes (widths between edges; for data at the points the last width is repeated; an axis with a single coordinate is averaged) and changes no other axis. It is linear in the values, integrating over several axes at once equals integrating one at a time in any order, a constant is multiplied by the lengths of the axes, and the integral over a domain cut at an edge is the sum of the parts. Coordinates that fit neither cells nor points are refused, as are axes the grid lacks and dimensions the values have no axis for. A range 'a:b' of axes, offered by the error message, always fails, and negative axis numbers integrate over the components.", "quantifier": "all shapes, grids (not necessarily uniform), values and sets of axes (exact arithmetic)", "why_tests_cant": "All shapes and non-uniform grids.", "anchors": ["src/postgkyl/tools/calculus.py:integrate"]}
{"id": "C44", "title": "Energetics, magnitude and relative change", "statement": "The total energy of the energetics tool equals the sum of its reported parts, which are the pressures and kinetic energies of the species and the field energies (ValueError when an axis of one cell follows a longer axis); the squared magnitude is non-negative and zero only for the zero vector; with respect to a reference that is nowhere zero the relative change is zero exactly where nothing changed and adding it back to the reference reproduces the data.", "quantifier": "all real inputs", "why_tests_cant": "A continuum of inputs.", "anchors": ["src/postgkyl/tools/energetics.py:energetics", "src/postgkyl/tools/mag_sq.py:mag_sq", "src/postgkyl/tools/rel_change.py:rel_change"]}
{"id": "C45", "title": "Enumeration names and numbers correspond one to one", "statement": "For every enumeration without repeated names, looking up the number of a name and the name of a number are inverse to each other; unknown names and numbers past the end are rejected. A negative number, however, names the member counted from the end. A file counts as using mapped coordinates exactly if its geometry number is that of the mapped geometry or it has none.", "quantifier": "all members of any enumeration list without repeated names", "why_tests_cant": "All members.", "anchors": ["src/postgkyl/utils/gkeyll_enums.py:enum_key_to_idx", "src/postgkyl/utils/gkeyll_enums.py:enum_idx_to_key"]}
{"id": "C46", "title": "Block selections parse as Python slices", "statement": "A multi-block selection given as a comma list yields exactly those blocks in order; given as start:stop:step it yields exactly the block numbers Python's slice takes from 0..9999, and malformed text and a zero step are rejected. The balance commands then only use the number of chosen blocks: they read blocks 0..n-1 instead of the chosen ones.", "quantifier": "all integer start, stop and step", "why_tests_cant": "All slices.", "anchors": ["src/postgkyl/utils/gk_utils.py:get_block_indices", "src/postgkyl/utils/gk_utils.py:parse_slice_string", "src/postgkyl/commands/gk_particle_balance.py:gk_particle_balance"]}
{"id": "C47", "title": "Every component gets its own panel", "statement": "The default figure layout for n components has at least n panels, no empty row, is square or one column wider than high, and no such layout has fewer panels; given rows (columns) are used with just as many columns (rows) as needed, and a number that is not positive is an error. In a new figure component c is drawn in panel c and the rest is switched off; with --subplots the components of all datasets get distinct consecutive panels. Plotting more components into a figure with colour bars draws into a colour bar instead of being refused. Only axes present when the call began are used; too few behind the first one is an IndexError.", "quantifier": "all component counts, options and lists of datasets", "why_tests_cant": "All component counts.", "anchors": ["src/postgkyl/output/plot.py:plot"]}
{"id": "C48", "title": "write uses distinct files within a tag", "statement": "The write command writes every active dataset of the used tags once, in order; with one used tag all files are different (a single dataset gets the plain name, several get name_position). With several tags two datasets get the same file exactly when they have the same position in their tags, so earlier output is overwritten. With --single all go to one file under distinct variable names. The mode comes from the file name's extension if it has one; a dot in a directory of the path loses the name.", "quantifier": "all data spaces", "why_tests_cant": "All combinations of tags and datasets.", "anchors": ["src/postgkyl/commands/write.py:write"]}
{"id": "C49", "title": "Particle balance error is the residual of the balance, summed over blocks", "statement": "With the files of all blocks covering the same times, the error trace is source minus boundary flux minus change at every time but the first, each summed over all blocks and boundaries (the source counts as zero at the first time), so it is zero exactly when the balance holds; the relative error is this times the time step over the particle content; a missing required file is an error. A source or flux is shown only if the last block has its file, and a full path given with --fdot_file is never read.", "quantifier": "any number of blocks, boundaries and time steps", "why_tests_cant": "All histories.", "anchors": ["src/postgkyl/commands/gk_particle_balance.py:gk_particle_balance"]}
{"id": "C50", "title": "FLASH block data are painted at the right place", "statement": "For blocks on a lattice of the smallest block size, the mesh has the resolution of the smallest blocks and fills the domain, and a mesh cell whose centre lies in a cell of a leaf block gets its value unless a leaf block read later contains it or its neighbour at the lower left; so cells outside the first row and column of their block are always right. Since one extra row and column are painted, the first column of a block is wrong when its left neighbour is read later. With every operation rounded to doubles the result is the same when sizes and centres are binary fractions of moderate range and the cells per block a power of two; otherwise blocks can be overwritten by their neighbours or lose their cells.", "quantifier": "all block layouts", "why_tests_cant": "All AMR layouts.", "anchors": ["src/postgkyl/data/flash_h5_reader.py:FlashH5Reader._read_frame"]}
{"id": "C51", "title": "Metadata in the file end up under their canonical names", "statement": "After the metadata block of a file is read, every key holds the value of its last entry, 'polyOrder' and 'basisType' are stored as 'poly_order' and 'basis_type' and never under the old name, an entry for the basis marks the data as modal, and keys not mentioned keep the value they had.", "quantifier": "all metadata dictionaries and all previous contexts", "why_tests_cant": "Unbounded number of keys and orders.", "anchors": ["src/postgkyl/data/gkyl_reader.py:GkylReader._read_header"]}
{"id": "C52", "title": "Output file names", "statement": "A given output name gets '.<extension>' appended exactly when it does not end with it (a name equal to the bare extension stays as it is), and the rule is stable under repetition. Without a given name the default is never the name of the source file; it only depends on the path before its first dot, so it may coincide for different sources and lose the directory.", "quantifier": "all file names, given names and extensions without a dot", "why_tests_cant": "Names containing dots, underscores and directories in any arrangement.", "anchors": ["src/postgkyl/data/gdata.py:GData.write"]}
{"id": "C53", "title": "Commands over datasets process each active dataset once", "statement": "A command that loops over datasets applies its computation exactly once to every active dataset of the used tags. Without --tag each of those datasets is replaced in place and everything else (other datasets, tags, positions, status) stays; if the computation fails for one of them the command fails. With --tag T one result per active dataset, in order, is added behind the datasets of T and all existing datasets stay. This requires that T does not come after another used tag: otherwise the command also processes its own results.", "quantifier": "every data space, every used tag list, every computation", "why_tests_cant": "The iteration is lazy and the loop body changes what is iterated over.", "anchors": ["src/postgkyl/commands/data_space.py:DataSpace.iterator", "src/postgkyl/commands/integrate.py", "src/postgkyl/commands/interpolate.py", "src/postgkyl/commands/fft.py"]}
{"id": "C54", "title": "Commands over pairs of datasets pair them up in order", "statement": "A command over two tags computes one active result from the k-th active dataset of the first tag and the k-th of the second, for as many pairs as the shorter list has, adds them in order under the output tag, deactivates all datasets of both inputs, and changes nothing else.", "quantifier": "every data space, all distinct tags, every computation", "why_tests_cant": "All numbers and activity patterns of datasets.", "anchors": ["src/postgkyl/commands/velocity.py", "src/postgkyl/commands/parrotate.py", "src/postgkyl/commands/perprotate.py", "src/postgkyl/commands/data_space.py:DataSpace.deactivate_all"]}
{"id": "C55", "title": "Nodal bases take the value 1 at their own node and 0 at the others", "statement": "Each tabulated nodal basis function is 1 at its own node and 0 at every other node of the cell; every polynomial of the serendipity space is reproduced exactly from its values at the nodes; and every value of nodal interpolation is that expansion at the centre of its sub-cell. Unsupported dimension, order or family fails.", "quantifier": "all tabulated nodal bases, all node values, all polynomials of the space", "why_tests_cant": "Exact identities over thousands of tabulated coefficients and all polynomials.", "anchors": ["src/postgkyl/data/computeInterpolationMatrices.py:createInterpMatrix", "src/postgkyl/data/dg.py:GInterpNodal"]}
{"id": "C56", "title": "Mapped grids are evaluated at shared nodes", "statement": "With a coordinate mapping (c2p) the refined grid array has c*(n-1)+1 nodes in a direction of c cells with n nodes each. Every node holds the expansion of the coordinates of one cell touching it, at the local position of that node in that cell, namely the cell on the lower side. If the cells sharing a node agree on its position, the result is that position whichever cell is taken. For modal data with a mapped grid whose basis is recognised, the grid returned by interpolate holds the mapping's expansion at n+1 equally spaced nodes per cell and direction, both cell faces included. When only the velocity coordinates are mapped (c2p_vel), the configuration coordinates are refined as uniform ones and each velocity coordinate is the one-dimensional mapping at its nodes.", "quantifier": "all numbers of cells, nodes per cell, coefficients and basis matrices, every node", "why_tests_cant": "The array is overwritten slice by slice; which cell a shared node comes from depends on the write order in all dimensions.", "anchors": ["src/postgkyl/data/dg.py:_interp_on_mesh"]}
{"id": "C57", "title": "The basis of a mapped grid is recognised by its size", "statement": "The basis guessed from the number of coordinate coefficients always has exactly that many functions. Serendipity spaces of order 1 or more and tensor spaces of order 2 or more are recognised as themselves (in one dimension as the tensor space with the same functions); tensor order 1 is taken for serendipity order 1. Constant coordinates are never recognised, and maximal-order coordinates are not recognised or taken for another space.", "quantifier": "all dimensions, orders and numbers of coefficients", "why_tests_cant": "The guess must be injective over all tables of sizes.", "anchors": ["src/postgkyl/data/dg.py:_get_basis_p"]}
{"id": "C58", "title": "rotation_matrix returns no rotation", "statement": "The matrix computed by tools.rotation_matrix has orthogonal rows, but its first row has squared length 3 for every vector without zero component, and it only depends on the signs of the components.", "quantifier": "all vectors without zero component", "why_tests_cant": "a test would have to know that np.abs is not the norm", "anchors": ["src/postgkyl/tools/rotation_matrix.py:6-31"]}
{"id": "C59", "title": "ev int and avg sum and average over the chosen axes", "statement": "The ev command int gives the sum of value times width over the chosen axes; avg divides it by the lengths of the axes, and on a grid of cells the result lies between any bounds of the values (so the average of a constant is the constant). A second int or avg on a result always fails because of its single coordinate, although both axes at once work. For data at the points of an uneven grid avg of 1 is not 1.", "quantifier": "all shapes, increasing grids, values and sets of axes (exact arithmetic)", "why_tests_cant": "All shapes, grids and sets of axes.", "anchors": ["src/postgkyl/commands/ev_cmd.py:integrate", "src/postgkyl/commands/ev_cmd.py:average", "src/postgkyl/commands/ev_cmd.py:length"]}
{"id": "C60", "title": "ev grad gives the slope of the parabola through neighbouring cells", "statement": "In every cell, boundary cells included, component d*nc+c of ev grad is the slope at the cell centre of the parabola through component c at the three neighbouring cell centres along axis d, on uniform and uneven grids alike; it is exact for polynomials of degree two. The grid is kept. Data given at the points of the grid, and axes with fewer than three cells, are refused.", "quantifier": "all dimensions, shapes, numbers of components and increasing grids (exact arithmetic)", "why_tests_cant": "All grids and functions.", "anchors": ["src/postgkyl/commands/ev_cmd.py:grad"]}
{"id": "C61", "title": "ev div and curl obey the identities of vector calculus", "statement": "ev div is the sum of the derivatives of component d along axis d and ignores further components (too few are refused); ev curl in one and two dimensions has the components of the mathematical curl. In two dimensions the curl of a gradient and the divergence of a curl are zero in every cell, boundary cells included. In three dimensions curl never gives a result.", "quantifier": "all shapes, values and increasing grids with at least three cells per axis (exact arithmetic)", "why_tests_cant": "All fields and grids.", "anchors": ["src/postgkyl/commands/ev_cmd.py:divergence", "src/postgkyl/commands/ev_cmd.py:curl"]}
{"id": "C62", "title": "Energy balance error is the residual of the balance over species and blocks", "statement": "The error trace of the energy balance is source minus boundary flux minus change of the species' energy plus change of the field energy, each summed over species, blocks and boundaries; the relative error is this times the time step over the energy content; the field file is required in every block.", "quantifier": "any number of species, blocks, boundaries and time steps", "why_tests_cant": "All histories.", "anchors": ["src/postgkyl/commands/gk_energy_balance.py:gk_energy_balance"]}
{"id": "C63", "title": "Frames of a distribution function are those present in the requested range", "statement": "A range lower:upper:step yields in increasing order exactly the frames with a file that lie in the range and a multiple of the step above its lower end; ends left out are those of the frames present; comma lists and single numbers are taken as they are; blanks are ignored; an open end without files and a zero step with a frame in range are errors. A frame number written with leading zeros is found but then not loaded under its own name.", "quantifier": "all directories, names, ranges and lists", "why_tests_cant": "All directory contents and ranges.", "anchors": ["src/postgkyl/commands/gk_distf.py:gk_distf"]}
{"id": "C64", "title": "Cell edges reconstructed from centres", "statement": "From two or more cell centres, the reconstructed edges are one more than the cells, lie halfway between centres, and have the first and last centre in the middle of their cells; centres of cells of equal width give back the edges exactly and increasing centres give increasing edges around them. A single cell gets its upper edge at zero and unequal cells are not recovered.", "quantifier": "any number of cells", "why_tests_cant": "All grids.", "anchors": ["src/postgkyl/commands/gk_distf.py:_convert_cell_centered_to_nodal"]}
{"id": "C65", "title": "Plasma parameters are the textbook combinations in every cell", "statement": "For a species with mass m and charge q and a field with eps_0 and mu_0 (from the metadata, or from the keyword where the metadata holds zero), every cell of magB, omega_C, omega_P, v_A, v_t, the inertial length, the Debye length and the gyroradius holds the value determined by that cell's density, pressure and field; the Debye length and gyroradius do not depend on the sqrt2 option. Missing metadata raise KeyError. Claimed and false: beta is p over the magnetic pressure; the code's thermal speed divides by the mass although the density already contains it, so beta is too small by the factor m.", "quantifier": "all cell shapes, all positive densities, pressures, fields and constants, five- and ten-moment data", "why_tests_cant": "The values are real functions of all inputs; no finite test covers them.", "anchors": ["src/postgkyl/tools/params.py:get_vt", "src/postgkyl/tools/params.py:get_vA", "src/postgkyl/tools/params.py:get_omegaC", "src/postgkyl/tools/params.py:get_omegaP", "src/postgkyl/tools/params.py:get_d", "src/postgkyl/tools/params.py:get_lambdaD", "src/postgkyl/tools/params.py:get_rho", "src/postgkyl/tools/params.py:get_beta"]}
{"id": "C66", "title": "Laguerre composition has the given moments", "statement": "laguerre_compose returns, on the grid x, v_par, v_par, in every cell a combination of the first two Laguerre functions of v_perp at the cell's temperature, sampled at the cell centres, whose perpendicular density is the first coefficient and whose perpendicular energy moment is the second; with one coefficient component it fails with IndexError.", "quantifier": "all grids, coefficients and positive temperatures", "why_tests_cant": "The moments are integrals over all v_perp.", "anchors": ["src/postgkyl/tools/laguerre_compose.py:laguerre_compose"]}
{"id": "C67", "title": "Frame transformation shifts velocities by the bulk velocity at the nodes", "statement": "For one configuration dimension transform_frame leaves the spatial nodes in place and adds to every velocity node the mean of the bulk velocity in the cells touching its spatial node; a uniform bulk velocity is added as is. A bulk velocity on another mesh (unless of one cell) or with too few components is refused. For two or three configuration dimensions it always fails.", "quantifier": "all grids, any number of velocity dimensions", "why_tests_cant": "All sizes and values.", "anchors": ["src/postgkyl/tools/transform_frame.py:transform_frame"]}
{"id": "C68", "title": "The current command makes one negated dataset per species", "statement": "accumulate_current negates the flow in every entry; with --qbym it always fails. The command adds one dataset per active dataset of the used tags under the given tag, in order, with the given label, deactivates the inputs and changes nothing else; no sum over the species is formed. If the tag already exists behind another used tag, results are taken as inputs and negated twice.", "quantifier": "all data spaces and arrays", "why_tests_cant": "All combinations of tags, statuses and datasets.", "anchors": ["src/postgkyl/tools/accumulate_current.py:accumulate_current", "src/postgkyl/commands/current.py:current"]}
{"id": "C69", "title": "laguerrecompose and transformframe pair datasets of two tags", "statement": "Without --tag the k-th active dataset of the first tag is overwritten with the result for it and the k-th active dataset of the second tag, as far as both lists go, and everything else stays. With --tag the data space is unchanged: the result is lost.", "quantifier": "all data spaces, any computation", "why_tests_cant": "All combinations of tags and datasets.", "anchors": ["src/postgkyl/commands/laguerre_compose.py:laguerrecompose", "src/postgkyl/commands/transform_frame.py:transformframe"]}
{"id": "C70", "title": "val2coord pairs columns", "statement": "For a table, val2coord makes one dataset per y-column, in order, whose coordinates are the paired x-column (or the only x-column) and whose values are the y-column; with --periodic the first entry is repeated at the end. Different numbers of x- and y-columns end the program; comma lists always fail. The command deactivates the inputs and puts the results, in order, behind the datasets of the result's tag. Claimed and false: column ranges behave like Python slices (a stop beyond the last column fails; a reversed slice makes nothing).", "quantifier": "all tables, all in-range column choices, all data spaces", "why_tests_cant": "All sizes and column choices.", "anchors": ["src/postgkyl/commands/val2coord.py:val2coord", "src/postgkyl/commands/val2coord.py:_get_range"]}
{"id": "C71", "title": "The modal expansion kernels evaluate the tabulated basis", "statement": "For every dimension and order the kernel expand_Nd[p-1] evaluates, at every point of the reference cell and for all coefficients, the expansion in the serendipity basis used by interpolation, with the coefficients in the same order. True (to 1e-13 times the sum of the absolute coefficients) for order 1 in all dimensions, order 2-4 in two dimensions and order 2-3 in three and four. False otherwise: with ^ for powers the kernels raise TypeError (1d orders 2-4, 5d orders 2-4, 6d order 2), order 4 in 3d and 4d multiplies coefficients together so that fields vanish, 6d orders 3 and 4 return nothing. Order 0 silently uses order 4.", "quantifier": "all coefficients, all points of the reference cell, all tabulated dimensions and orders", "why_tests_cant": "Polynomial identities over all points and coefficients.", "anchors": ["src/postgkyl/modalDG/kernels/expand1d.py:expand_1d", "src/postgkyl/modalDG/kernels/expand2d.py:expand_2d", "src/postgkyl/modalDG/kernels/expand3d.py:expand_3d", "src/postgkyl/modalDG/kernels/expand4d.py:expand_4d", "src/postgkyl/modalDG/kernels/expand5d.py:expand_5d", "src/postgkyl/modalDG/kernels/expand6d.py:expand_6d", "src/postgkyl/modalDG/interpolate.py:interpolate"]}
{"id": "C72", "title": "Partial load of an ADIOS frame: data, grid and reported size", "statement": "Loading an ADIOS frame with any combination of cuts given as an index, a closed slice 'a:b' or ':b', or a coordinate, and components given as an index or closed slice, returns exactly the requested block of the stored array and, in every dimension, exactly the nodes of the full grid that bound the loaded cells. The dataset nevertheless reports the number of cells and the bounds of the whole frame. Slices open at the end ('a:', ':') or ending at -1, negative indices and index lists are refused, and asking for a missing variable raises an unrelated exception.", "quantifier": "any number of dimensions, cell counts, bounds, component counts, data, and combinations of cuts", "why_tests_cant": "The offsets, counts and shifted bounds are computed per dimension; each form of cut goes through different code and tests use one.", "anchors": ["src/postgkyl/data/gkyl_adios_reader.py:GkylAdiosReader._create_offset_count", "src/postgkyl/data/gkyl_adios_reader.py:GkylAdiosReader._load_frame", "src/postgkyl/data/gkyl_adios_reader.py:GkylAdiosReader.preload"]}
{"id": "C73", "title": "Ghost cells are placed inside the domain", "statement": "When the data have more cells than the file's grid (g ghost layers on both sides), the ADIOS and gkyl readers keep the number of cells of the data but move both ends of the grid inwards by g cells instead of outwards, so whenever the numbers of cells differ the cell width of the grid differs from the true one, and with ghost cells the grid never extends beyond the stored domain; when they agree nothing changes.", "quantifier": "all bounds, cell counts and data sizes", "why_tests_cant": "Sample files carry no ghost cells; the wrong sign is invisible when the sizes agree.", "anchors": ["src/postgkyl/data/gkyl_adios_reader.py:GkylAdiosReader._load_frame", "src/postgkyl/data/gkyl_reader.py:GkylReader.load"]}
{"id": "C74", "title": "Pieces of an ADIOS time trace are joined in numerical order", "statement": "For a diagnostic stored as pieces TimeMesh<k> and Data<k>, whatever the order in which the file lists its variables and whatever other variables it has, the times and rows are concatenated in increasing k, times and rows alike (piece 10 after piece 9). With rows stored without a component axis, a trace of one piece loads but one of several pieces is refused.", "quantifier": "any set of piece numbers, any lengths, any listing order, any other variables", "why_tests_cant": "Alphabetical and numerical order agree for fewer than ten pieces.", "anchors": ["src/postgkyl/data/gkyl_adios_reader.py:GkylAdiosReader._load_diagnostic"]}
{"id": "C75", "title": "The legacy HDF5 reader: frames are right, time traces lose their times", "statement": "For a frame the values, cells, bounds, component count and nodes are exactly those stored in the file. For a diagnostic of two or more times the stored times are replaced by equally spaced nodes, one more than there are rows. If the context dictionary is empty on entry and the file has no time, cells, bounds and components are not recorded, and data without a component axis then appear with one dimension too few.", "quantifier": "all dimension counts, sizes, bounds, times and data", "why_tests_cant": "It depends on data-dependent truthiness of a dictionary and on the spacing of times.", "anchors": ["src/postgkyl/data/gkyl_h5_reader.py:GkylH5Reader.load", "src/postgkyl/data/gkyl_h5_reader.py:GkylH5Reader._read_diagnostic"]}
{"id": "C76", "title": "Mapped grids are split by coordinate correctly", "statement": "For a mapping file whose number of components is a multiple of the number of dimensions, coordinate d of the grid is exactly the d-th block of components in every cell. For a velocity-space mapping the configuration-space coordinates are uniform and velocity coordinate d is its block of components along its own axis at the first cell of the other velocity axes. Loading part of an ADIOS frame that has a mapping file always fails.", "quantifier": "any number of dimensions, cells, coefficients per coordinate and mapping data", "why_tests_cant": "Indexing arithmetic over component blocks is exercised by one basis in tests.", "anchors": ["src/postgkyl/data/gkyl_reader.py:GkylReader.load", "src/postgkyl/data/gkyl_adios_reader.py:GkylAdiosReader._load_frame"]}
{"id": "C77", "title": "Which reader opens a file", "statement": "The readers are tried in the order gkyl, adios, h5, flash and the first that accepts the file is used; a valid reader name restricts the choice to it, an unknown name is silently ignored, and if none accepts the file a NameError is raised; an exception raised while asking a reader ends the search. A FLASH file, though recognized, never becomes a dataset: its reader has no preload method (AttributeError). Naming the h5 reader instead of letting it be found changes the resulting metadata.", "quantifier": "all file compatibilities and reader names", "why_tests_cant": "The outcome depends on the combination of all readers' answers.", "anchors": ["src/postgkyl/data/gdata.py:GData.__init__", "src/postgkyl/data/flash_h5_reader.py:FlashH5Reader"]}
{"id": "C78", "title": "An ev token addresses exactly the datasets, components and metadata it names", "statement": "In an ev expression a token made of a name, an optional bracketed dataset selection, an optional bracketed component selection and an optional .key refers to exactly the active datasets picked by the selection under the tag (or under every tag for a name beginning with f), in order; each contributes its selected components, or its metadata value under the key, and if one of them lacks the key ev fails. The form tag.key without brackets is not read as metadata of that tag: it is refused, or, when the tag begins with f, reads the metadata of all tags.", "quantifier": "all data spaces, tags, selections, components and keys", "why_tests_cant": "Tests use one or two token forms on one dataset.", "anchors": ["src/postgkyl/commands/ev.py:_data"]}
{"id": "C79", "title": "ev dot and the reductions compute what they say", "statement": "dot returns one component, the sum over components of the products, in every cell. max, min and mean return the one number that is the largest, smallest or average entry over all cells and components, without a grid; they succeed on every non-empty array and raise ValueError on an empty one. mean is not taken per component.", "quantifier": "arrays of any shape and any rational entries", "why_tests_cant": "Tests check single arrays.", "anchors": ["src/postgkyl/commands/ev_cmd.py:dot", "src/postgkyl/commands/ev_cmd.py:maximum", "src/postgkyl/commands/ev_cmd.py:minimum", "src/postgkyl/commands/ev_cmd.py:mean"]}
{"id": "C80", "title": "ev grad2 differentiates along exactly the axes asked for", "statement": "For axes given as a number, a comma list or a closed range, grad2 returns for each axis in that order the partial derivative of every component along that axis, computed at the cell centres; over all axes it equals grad. A range with an omitted bound is refused. A negative axis differentiates along the components while using the coordinates of a dimension.", "quantifier": "any number of dimensions, cells, components and any non-uniform grid", "why_tests_cant": "Tests use one 1-D grid.", "anchors": ["src/postgkyl/commands/ev_cmd.py:grad2"]}
{"id": "C81", "title": "ev scale_comp multiplies exactly the components named", "statement": "scale_comp multiplies every entry of the named components (one number, a comma list or a closed slice) by the factor, once for every time the component is named, keeps all other components, the shape and the grid. A component out of range raises IndexError, an open slice raises TypeError; a number that is not whole is truncated.", "quantifier": "arrays of any shape, all component selections and factors", "why_tests_cant": "Selections interact with repetition and negative numbers.", "anchors": ["src/postgkyl/commands/ev_cmd.py:scale_comp"]}
{"id": "C82", "title": "What ev scale_zi_axis changes", "statement": "scale_zi_axis multiplies each coordinate array in place once for every selected dataset that uses it in the dimension named, and stores the bounds of the new coordinates with the selected datasets. If no selected array is shared, exactly the coordinates named are scaled, once, and no other coordinates, datasets or bounds change. With --tag the source datasets are scaled as well and keep bounds that no longer fit; datasets sharing coordinates are scaled repeatedly.", "quantifier": "any number of datasets, dimensions, sharing between coordinate arrays, selections and factors", "why_tests_cant": "The effect depends on which arrays are shared, which earlier commands determine.", "anchors": ["src/postgkyl/commands/ev_cmd.py:scale_zi_axis", "src/postgkyl/commands/ev.py:ev"]}
{"id": "C83", "title": "The interpolate command evaluates every whole field with the basis asked for", "statement": "interpolate uses the family named by --basis_type (ms, mo, mt, gkhyb, pkpmhyb; the last is serendipity in one dimension) or else by the metadata, the order of --poly_order or the metadata, and --interp points per cell or one more than the order. Every whole field of modal data on a uniform grid is replaced, in order, by its expansion at the centres of the parts of each cell, the grid by these parts, the metadata stay. Without a basis, without a whole field, or with ns on data marked modal the command fails. --read does not change what is done to modal data. Nodal data with -b ns, -p and -i n are evaluated, field by field, by the expansion in the functions of their nodes at the centres of n parts per direction. They need --basis_type, --poly_order and --interp even when the metadata name them, and metadata saying is_modal is false: without that key -b ns, as well as no basis at all, is a KeyError, so that nodal data read from a Gkeyll file whose metadata do not contain that key cannot be interpolated.", "quantifier": "all options, numbers of dimensions, cells, components and tabulated bases", "why_tests_cant": "Options, metadata and dimension interact; tests run one basis.", "anchors": ["src/postgkyl/commands/interpolate.py:interpolate", "src/postgkyl/data/dg.py:GInterpModal.__init__"]}
{"id": "C84", "title": "The differentiate command differentiates the first field only", "statement": "On modal data differentiate depends only on the coefficients of the first field: datasets that agree on it, on the grid and on the metadata give the same result, whatever the other fields. The derivatives of the other fields are not computed, although interpolate handles all of them.", "quantifier": "all modal datasets and options", "why_tests_cant": "Tests use datasets with one field.", "anchors": ["src/postgkyl/commands/differentiate.py:differentiate", "src/postgkyl/data/dg.py:GInterpModal.differentiate"]}
{"id": "C85", "title": "Frame numbers come from the file names", "statement": "For the active datasets of one tag whose file names share a stem followed by the frame number, not all with the same leading digit, set_frame writes into each dataset the frame number of its own file name, changes nothing else and returns the distinct frames in increasing order. Without the condition on the leading digits it does not: frames 11 and 101 both become 1, frames 1 and 10 stop with an error, two blocks of one frame become two frames, and inactive datasets or a second tag shift the numbers.", "quantifier": "all stems, all frame numbers, any number of datasets", "why_tests_cant": "Tests use a few file names of equal length; the position of the first difference depends on all names together.", "anchors": ["src/postgkyl/utils/set_frame.py:set_frame"]}
{"id": "C86", "title": "Neighbouring blocks are found by geometry", "statement": "In one and two dimensions, for blocks that do not overlap and whose ends are equal or further apart than the tolerance of np.isclose, a block without earlier neighbours gets along each axis exactly the block that ends where it begins and the block that begins where it ends (same lower corner along the other axis), whatever the order of the datasets. In three dimensions no neighbour is ever found, and the call fails when a block below exists. Blocks smaller than the tolerance get wrong neighbours, and a second call keeps neighbours of the first.", "quantifier": "all arrangements and orders of blocks", "why_tests_cant": "Tests use one fixed arrangement of blocks of the size of one.", "anchors": ["src/postgkyl/data/gdata.py:GData.set_neighbors"]}
{"id": "C87", "title": "Line-outs across blocks", "statement": "select --multiblock with a coordinate along one axis gives, for blocks that do not overlap, one new active dataset: the cell edges of the blocks on the line joined without repetition and every value equal to the value of the block and cell it belongs to, for every component asked for. The new dataset records as its frame its position in the sequence of frames (0 without --multiframe), not the number of the frame. All blocks are deactivated and nothing else changes. When no block at the lower edge of the domain contains the coordinate the command stops, coordinates along both axes never work, and with --multiframe a line through three blocks takes the third from another frame.", "quantifier": "all arrangements of two-dimensional blocks, all numbers of cells, components and blocks on the line", "why_tests_cant": "Needs files of several blocks; tests use one arrangement with two blocks, where the wrong frame cannot show.", "anchors": ["src/postgkyl/commands/select.py:select", "src/postgkyl/data/gdata.py:GData.set_neighbors"]}
{"id": "C88", "title": "Commands over several iterators", "statement": "A command that loops over several iterators at once computes its k-th result from the k-th active dataset of every iterator, stops with the shortest, puts the results behind the datasets of the output tag and changes nothing else, as long as no iterator reaches the output tag after its first tag; the first failing turn ends it with its error. agyro adds for every pair the agyrotropy on the grid of the field and leaves the inputs active, with zero for gyrotropic pressures; mom_agyro computes it from ten-moment data and fields, but the measure of Swisdak that its help names as the default can never be computed; without tags it pairs every dataset with itself.", "quantifier": "all data spaces, tags, numbers of datasets, grids and values", "why_tests_cant": "The iterators are generators advanced in turn while the loop adds datasets to what they walk through; tests have one dataset per tag.", "anchors": ["src/postgkyl/commands/agyro.py:agyro", "src/postgkyl/commands/agyro.py:mom_agyro", "src/postgkyl/data/data_space.py:DataSpace.iterator", "src/postgkyl/tools/pressure_diagnostics.py:get_agyro"]}
{"id": "C89", "title": "Energetics command", "statement": "For every triple of active electron, ion and field datasets, energetics adds one active dataset on the grid of the field with seven components: pressure and kinetic energy of both species, electric and magnetic energy, and the sum of the six. The three input tags are deactivated and all other datasets stay as they are.", "quantifier": "all data spaces, five- or ten-moment species, positive densities, all numbers of cells that fit the broadcast", "why_tests_cant": "The total over several frames and the status of all other datasets is not looked at by tests.", "anchors": ["src/postgkyl/commands/energetics.py:energetics", "src/postgkyl/tools/energetics.py:energetics"]}
{"id": "C90", "title": "What is handed to matplotlib for a dataset", "statement": "For every dataset on a rectangular grid, given by cell edges or cell centres, with one or two axes of more than one cell, plot hands over for each component exactly its own values with the given shift and scale: one curve over the cell centres; one mesh over the grid points with values transposed so that the entry in row j, column i is that of cell (i, j); contours and streamlines over the cell centres; line-outs one curve per cell of the other axis; arrows every skip-th cell. The remaining axis labels are those of the remaining axes. With more than two such axes it raises ValueError and with none IndexError. A mapped grid is drawn cell by cell between its corners (corner coordinates averaged over the one-cell axes) unless it has exactly one more cell along the second axis than along the first, where only centres are handed over; contours on mapped grids raise TypeError or, on square ones, are drawn mirrored (refuted claim).", "quantifier": "all numbers of axes up to six, all cells, components, coordinates, values, shifts, scales and limits", "why_tests_cant": "Tests draw one file and compare nothing but that no exception is raised; an exchanged axis is seen only by eye.", "anchors": ["src/postgkyl/output/plot.py:plot", "src/postgkyl/output/plot.py:_get_nodal_grid"]}
{"id": "C91", "title": "Plotting a pair of grid and values", "statement": "A (grid, values) pair whose grid holds one point per cell is drawn exactly like the dataset made of the same arrays. A one-dimensional pair whose grid holds the cell edges raises ValueError, as do one-dimensional values without a component axis.", "quantifier": "all centred grids of any number of axes, all values, all drawing options", "why_tests_cant": "The number of cells is guessed from the grid for pairs only; tests use datasets.", "anchors": ["src/postgkyl/output/plot.py:plot", "src/postgkyl/utils/input_parser.py:input_parser"]}
{"id": "C92", "title": "Common colour limits of plot and animate", "statement": "The common range of plot is, for datasets with values, exactly the smallest and the largest scaled value over all drawn datasets. With a cutoff c in (0,1] the limits are the values at the fractions (1-c)/2 and (1+c)/2 of the sorted list of the smallest and largest scaled values of the datasets, interpolated linearly, lower not above upper, and every one of these extremes with rank between lies within the limits; c=1 gives the range without cutoff; c=0 is ignored; |c|>1 raises ValueError; negative c gives limits the wrong way round. A dataset without values raises ValueError. animate uses the y scale for one-dimensional and the z scale for other datasets, and raises UnboundLocalError without datasets. The range does not include --zshift (refuted claim).", "quantifier": "all lists of datasets, all values, scales and cutoffs", "why_tests_cant": "Limits decide what colours mean; tests never read them, and a cutoff interacts with the order of the extremes of all datasets.", "anchors": ["src/postgkyl/commands/plot.py:plot", "src/postgkyl/commands/animate.py:animate"]}
{"id": "C93", "title": "Which dataset the plot command draws and saves where", "statement": "The plot command draws the active datasets of the chosen tags in order, all with the same limits (given ones, else the common range), each with its label: the one of --legend at its position within the tag, else its own label if more than one dataset is active or --forcelegend is given, else nothing. Without --figure each dataset gets a new figure, no open figure is touched, and with --save it is written under the text of its file name before the first dot: a file with a name no other dataset has shows exactly that dataset; --saveframes likewise by position. With --multiblock, --subplots or --figure k all are added to one figure in order, subplots starting at the sum of the numbers of components before, other figures unchanged, and exactly one file with the joined names is written. --figure dataset uses the position as figure number and saves only the figure of the last dataset. A computed dataset with --save raises KeyError. Refuted: --save, --saveframes over several tags and --figure dataset --save leave a picture of every dataset; labels of --legend are given out in drawing order.", "quantifier": "all dataset spaces, tag choices, options and states of pyplot", "why_tests_cant": "Tests look at one plot; overwriting of files depends on the names of all datasets.", "anchors": ["src/postgkyl/commands/plot.py:plot", "src/postgkyl/output/plot.py:plot"]}
{"id": "C94", "title": "The frames of an animation", "statement": "animate makes one frame per active dataset of the chosen tags, in order, all drawn with the same limits: the given ones, else the common range of all datasets (with --float none); with --multiblock one frame per frame number in increasing order showing exactly the datasets of that number, every dataset in exactly one frame, one colour bar per frame, and with --float the range of the datasets in that frame; with --grouptags one animation per tag with as many frames as the smallest tag, frame i showing its i-th active dataset with the range of the tag. A movie has the name given or anim.mp4 / anim_tag.mp4 and contains exactly these frames; --saveframes writes frame i as prefix_i.png and nothing is shown. Titles give frame number and time unless 0. Without datasets UnboundLocalError is raised. Refuted: with --grouptags the pictures of every tag remain, shown animations have the limits of their own tag, given limits are respected; --title is shown.", "quantifier": "all dataset spaces, tag choices, values, limits, cutoffs and options", "why_tests_cant": "Movies are not looked at by tests, and what is shown is drawn after the command ends with options shared by all animations.", "anchors": ["src/postgkyl/commands/animate.py:animate", "src/postgkyl/commands/animate.py:_update", "src/postgkyl/commands/animate.py:globalrange"]}
{"id": "C95", "title": "The text on a figure", "statement": "On a new figure the x label is the one given or the name of the coordinate on that axis followed by its shift and scale exactly where they are not 0 and 1; the y label likewise, but the one made up for a 2-D plot is right exactly in the listed cases because the code tests shift and scale of the x axis. Panel k has the k-th title and labels of the comma-separated lists, nothing when a list is short; exactly the panels no component needs are switched off; all on one panel gives one title and one pair of labels; a figure that has axes keeps its labels. Each component is labelled by the prefix or prefix_cK, different components differently; curves carry this label and a legend is shown unless it is empty; other plots show it as text, with one colour bar per panel labelled with the label and the scale of the values, unless a colour is given, it is switched off, for streamlines or for a single contour level. Line-outs have one colour bar for the lines and no legend; a single line raises ZeroDivisionError. Limits are set on every panel drawn. Contour levels are 10, n-1 for --cnlevels n, the given values or n equally spaced ones from a to b; decreasing ones raise ValueError. Refuted: the y label tells its shift; the colour bar of line-outs names the coordinate; --lineouts 1 on 1-D data names the first coordinate.", "quantifier": "all options, labels, numbers of components and panels, level strings", "why_tests_cant": "Tests of plots do not look at text, and a wrong axis label goes unnoticed until someone reads numbers off the figure.", "anchors": ["src/postgkyl/output/plot.py:plot", "src/postgkyl/output/plot.py:pgkyl_colorbar"]}
{"id": "C96", "title": "The Fourier transform of a dataset", "statement": "For data with one to three axes of more than two coordinates, fft delivers per component the discrete transform: the data are recovered as the sum of the waves with the delivered amplitudes over the number of points, the total power is that of the data times the number of points, and a plane wave whose frequencies are listed under indices k, evaluated at the coordinates, gives the number of points at k and zero elsewhere. Listed frequencies start at 0 and lie in [-1/(2 dx), 1/(2 dx)). psd delivers the squared magnitudes of the first half of each axis; for real data of even length, counted twice except at frequency 0 and with the highest frequency added, they are all of the power. Collapsed axes are left out as if they had not been there; an axis with two coordinates and more than one value is refused, four axes are refused; iso does nothing on one axis, and without psd only prevents overwriting. Without overwriting the values of the source stay. Refuted: as many frequencies as values (on cell edges there is one more, and a wave is listed under n/(n+1) of its frequency); psd keeps all positive frequencies; the source is unchanged (collapsed axes are removed from its coordinates).", "quantifier": "all grids, values, numbers of axes and components, options", "why_tests_cant": "A test transforms a sine and looks for a peak near the right place; a frequency that is off by n/(n+1) passes, and the change to the source shows only on collapsed data.", "anchors": ["src/postgkyl/tools/fft.py:fft"]}
{"id": "C97", "title": "The isotropic power spectrum", "statement": "With psd and iso and at least four coordinates per axis, the number of bins is the integer part of the diagonal of the box of points, bin i is at wave number (i+1) dk with dk the largest of the lowest frequencies of the axes, and holds the sum of the power of the modes nearest to it, the last bin also of all larger ones, over their number; the first bin contains in addition the power of the modes below dk/2, which are not counted. No mode belongs to the upper half of the bins. Refuted: the first bin is the average over its modes (constant data give a value there). With three coordinates on one axis and an odd half of the other, all bins are at wave number 0; with three coordinates on two of three axes and an even half of the third, IndexError.", "quantifier": "all grids and values with two or three axes", "why_tests_cant": "The binned spectrum of a simulation has no known answer, and the leak of the mean into the first bin looks like energy at large scales.", "anchors": ["src/postgkyl/tools/fft.py:fft", "src/postgkyl/tools/init_polar.py:init_polar", "src/postgkyl/tools/polar_isotropic.py:polar_isotropic"]}
{"id": "C98", "title": "The Fourier filter", "statement": "fft_filtering returns as many values as it is given and refuses none at all with ZeroDivisionError. A wave that fits the samples passes unchanged if the magnitude of its frequency is at most the cutoff and vanishes otherwise. The filter is linear, filtering twice is filtering once, real data stay real, energy does not grow. A cutoff of at least half the sampling rate changes nothing, a negative one removes everything.", "quantifier": "all data, sample spacings and cutoffs", "why_tests_cant": "A test filters one signal at one cutoff; keeping real data real depends on removing frequencies in pairs for every length and cutoff.", "anchors": ["src/postgkyl/tools/filters.py:fft_filtering"]}
{"id": "C99", "title": "Growth rates", "statement": "fit_growth tries the leading regions of min_N, min_N+1, ..., N-1 points, each from the best parameters so far, and returns the first of the regions with the largest R2 together with it; the region with all N points is never tried. If no region is better than the mean, unpacking the missing result raises TypeError; with the default minimal size, fewer than 10 points raise ValueError. Data that are an exact exponential are recovered exactly if the optimiser finds the minimum, and the rate refers to the coordinate, not to the point number. The command fits component 0 of one-dimensional data, of two-dimensional data with a direction only the first row or column; one-dimensional data with a direction raise IndexError; instantaneous rates fail for more than three coordinates. Refuted: the rate is per unit of the coordinate for other fit functions; one rate for every row.", "quantifier": "all data, grids, guesses and optimisers", "why_tests_cant": "A test fits one exponential; which regions are tried, what happens when no fit is better than the mean, and the paths of the command that always fail are not seen.", "anchors": ["src/postgkyl/tools/growth.py:fit_growth", "src/postgkyl/tools/growth.py:exp2", "src/postgkyl/commands/growth.py:growth"]}
{"id": "C100", "title": "Listing of outputs", "statement": "listoutputs prints, for every extension of the comma-separated list in order, nothing if no file that is not hidden has it, else a heading and the stems of these files, each once, in alphabetical order. The stem is the name without the extension, then without a final _restart, then without a final underscore and number. The order of the directory does not matter. All frames of an output have its name as stem, so has its restart file if the name does not end in a number. Refuted: different outputs have different stems (run_1 and run_2), restart frames are listed under the name of the output (sim_restart_0); blanks after commas belong to the extension.", "quantifier": "all directories and lists of extensions", "why_tests_cant": "A test has one directory; stems of names with several underscores, numbers and marks are many combinations.", "anchors": ["src/postgkyl/commands/listoutputs.py:listoutputs"]}
{"id": "C101", "title": "Style files, rcParams and the settings of a plot", "statement": "Every line of a style file and every --set argument names one key and one value, separated by the first colon and without outer white space. Loading gives each named key the value of the last line that names it and changes no other; values spelled cycler('color', ...) are the evaluated colours; --set comes after --file and wins, its values are texts. A cycle that cannot be evaluated stops the command. Keys stay unique and free of outer blanks. What style --print prints is a style file which, loaded into an empty dictionary, gives the same settings in the same order. A plot without --style sets the colour map (jet before --cmap before --diverging), line colour, width and style of its options, else what rcParams say, and nothing else, so for these keys earlier plots do not matter; one entry that Matplotlib refuses stops every such plot. With a style file (the default one if there are no rcParams) only these options change what the file sets, rcParams do not count, and a file that cannot be used stops the plot. Refuted: options of one plot do not affect later ones (line style); comments and blank lines of style files are skipped (each becomes a key and every plot fails); other spellings of a colour cycle are understood.", "quantifier": "all texts, arguments, histories of settings and options", "why_tests_cant": "A test loads the shipped file and draws one plot; settings left behind by earlier plots and lines with comments need sequences and files no test has.", "anchors": ["src/postgkyl/utils/load_style.py:load_style", "src/postgkyl/commands/style.py:style", "src/postgkyl/output/plot.py:plot", "src/postgkyl/pgkyl.py:cli"]}
{"id": "C102", "title": "Kinetic energy and its dissipation", "statement": "calc_ke_dke returns one array twice. With a first frame 0 or 1, all entries but the last two are minus the difference of consecutive energies over (final_time-init_time+1)/frames (from frame 1 on, one frame later than the entry), and the last two are the energies, an energy being twice the integrated kinetic energy of the frame times vol. A first frame of 2 or more with at least three frames raises IndexError; with one or two frames both results are the energies; two-dimensional data never give a result; an empty range of frames never gives a result. Refuted: the first result is the kinetic energy; the frames read are those of the given root name (they are root_file_name<c>.bp).", "quantifier": "all files, frame ranges, volumes and times", "why_tests_cant": "A test compares one of the two results of one run; aliasing of the two results and the frames read are not seen with one frame.", "anchors": ["src/postgkyl/tools/calc_ke_dke.py:calc_ke_dke"]}
{"id": "C103", "title": "Enstrophy", "statement": "calc_enstrophy returns one array twice, one entry per frame: dx dy dz times the sum, over all cells but the last layer along each axis, of the density times the squares of the three diagonal slopes of the velocity; a slope is that of the parabola through three neighbouring points, unique. Fewer than three cells along an axis of the first frame never give a result. Refuted: for rigid rotation the results are the integrals of the squared curl or of the squared velocity gradient (both are 0).", "quantifier": "all files, frame ranges and data", "why_tests_cant": "A test compares numbers of one flow; that the first result is overwritten by the second and off-diagonal slopes are not counted needs a flow where they matter.", "anchors": ["src/postgkyl/tools/calc_enstrophy.py:calc_enstrophy"]}
{"id": "C104", "title": "The grid command", "statement": "grid replaces a dataset with cell edges, or with a mapped grid in two or more dimensions, by one on its nodes: one more node than cells along each axis, one component per coordinate, component k at a node being the k-th coordinate there, and a grid of integers from 0 to the number of nodes along each axis. With a tag the new dataset has the same content and the source is unchanged. Applied twice, it gives the node numbers. Cell centres along some axis with other than one cell raise ValueError. Refuted: cell centres are always refused (with a single cell along each axis both nodes get the centre).", "quantifier": "all grids, cell numbers and dimensions", "why_tests_cant": "A test tries one grid; mapped grids, centres and repeated use each take another branch.", "anchors": ["src/postgkyl/commands/grid.py:grid", "src/postgkyl/data/gdata.py:GData.push"]}
{"id": "C105", "title": "The report on a dataset", "statement": "For a dataset whose values, cells and bounds fit each other on a grid of named type, info gives, line by line: time and frame if present, numbers of components and dimensions, grid type, one line per axis with its cells and bounds, the largest and the smallest value each with the first place in row-major order where it occurs (the component only if there are several), a DG section, sections on the build and the geometry if their keys are present, and each other key once in order. Cells without a grid type give KeyError, a basis without the modal flag and a geometry number out of range give no report. The command prints a heading label (tag#number) per chosen dataset in order, followed by its report unless compact is asked, and stops with the error of the first dataset without a report; headings tell datasets apart if tags have no opening bracket. Refuted: a dataset made by pushing a grid and values has a report (KeyError); the DG section is there only for DG data.", "quantifier": "all datasets, metadata, tags and options", "why_tests_cant": "A test prints one dataset; ties of extremes, missing keys and datasets made by other commands take other branches.", "anchors": ["src/postgkyl/data/gdata.py:GData.info", "src/postgkyl/commands/info.py:info", "src/postgkyl/utils/gkeyll_enums.py:gkyl_geometry_id"]}
{"id": "C106", "title": "The relchange command", "statement": "Without a tag for the result, relchange replaces each active dataset of the chosen tags by its change relative to the reference of its tag (the dataset at the given index, from the end if negative) and changes nothing else. The reference is replaced too when it is reached, so datasets up to an active reference are compared with its values and those behind it with the change of the reference to itself, which is zero in every cell where the reference was not. With a tag, which is the default, it raises TypeError as soon as there is an active dataset; an unknown tag gives KeyError, an index out of range IndexError, and with no active dataset nothing happens.", "quantifier": "all collections, tags, indices, statuses and values", "why_tests_cant": "The usual use has two datasets and the first as reference; only the order of replacement shows what later datasets are divided by.", "anchors": ["src/postgkyl/commands/relchange.py:relchange", "src/postgkyl/tools/rel_change.py:rel_change"]}
{"id": "C107", "title": "Loading a gyrokinetic distribution function", "statement": "The loaded dataset holds, at the centre of each part of each cell, the DG expansion of the frame divided coefficient by coefficient by the velocity Jacobian of the cell, times the expansion of the inverse total Jacobian at the same position, with one component; its grid is that of interpolating the frame itself. With a position map, every axis of position becomes the edges between the mapped centres along that axis and the velocity axes stay. The files read are those given, or the names built from simulation, block, species, source and frame, and no others, and each frame gives one dataset in order. A constant distribution comes back as the constant. Two dimensions of position with one of velocity raise ValueError.", "quantifier": "all files of matching shape, numbers of cells and points, flags, names and frames", "why_tests_cant": "Division by the Jacobian happens on coefficients and multiplication on points; a slip in either is invisible where a Jacobian is constant.", "anchors": ["src/postgkyl/commands/gk_distf.py:load_gk_distf", "src/postgkyl/commands/gk_distf.py:_apply_mc2nu_grid", "src/postgkyl/commands/gk_distf.py:_extract_values_along_dimension", "src/postgkyl/commands/gk_distf.py:gk_distf"]}
{"id": "C108", "title": "Drawing the nodes of a gyrokinetic grid", "statement": "gk_nodes draws a dot at the radius and height of every node of every block (in three dimensions of the nodes with second index 0) and a line between two nodes exactly if they are neighbours along an axis of the same block; radius and height come from Cartesian coordinates if the file names no geometry or mapc2p, else from the first two components. Blocks take the colours of the cycle in turn or all the first. Per block it adds a dataset of nodes and, except in one dimension, one of edges, with the block in the tag only if there are several, then one of the flux. The extent used is the smallest and largest radius and height of all nodes (within 1e9), lengths along both axes are drawn at the same scale, the axes end where the colour bar begins, and their left edge is inside the figure exactly up to a width of 2.05/1.5048 heights. Flux values are transposed and contours use the centres of the cells; a single level has no colour bar. The files read are those of the chosen blocks. Levels given as start:end:number always fail (NameError), limits need two numbers. Refuted: the bounds of the dataset of nodes enclose all nodes (they are those of the first line, and the second axis counts as components).", "quantifier": "all node files of one to three dimensions, blocks, names, options", "why_tests_cant": "What is joined by a line and the scale of a figure are seen by eye only; tests do not open figures.", "anchors": ["src/postgkyl/commands/gk_nodes.py:gk_nodes", "src/postgkyl/commands/gk_nodes.py:nodes_to_RZ", "src/postgkyl/commands/gk_nodes.py:is_geo_mapc2p", "src/postgkyl/utils/gk_utils.py:read_gfile", "src/postgkyl/data/gdata.py:push"]}
{"id": "C109", "title": "The animation of particle trajectories", "statement": "trajectory shows, in frame i, for every active dataset of its one tag in order: the whole path with the coordinates that are not strictly inside the given bounds left out, the position number i times the jump, and, where velocities are asked for and there are six components, a line from that position to where the velocity in row i would take it in the time to the next shown position (to the last one at the end); colours repeat after ten, and the title has the time of the last dataset. Without a number of frames every position is shown once; with k frames the jump is the number of positions over k rounded down and every frame shows an existing position. With a jump above one the velocity is not that of the position shown, the last frame need not be near the end, and with more frames than positions drawing velocities raises IndexError. Several tags are refused, no tag raises IndexError, an unknown one KeyError, and no active dataset UnboundLocalError. The file is saved only when asked for, under the name given or anim.mp4.", "quantifier": "all tracks, bounds, numbers of frames, frames, statuses and tags", "why_tests_cant": "A film cannot be compared in a test; the velocity taken from another row than the position shows only when frames are skipped, and the failure only in a late frame.", "anchors": ["src/postgkyl/commands/trajectory.py:_update", "src/postgkyl/commands/trajectory.py:trajectory"]}
{"id": "C110", "title": "The embedded input file, and printing", "statement": "extractinput prints, for every active dataset of the tags in order, the text whose UTF-8 bytes were written in base64 into the attribute of its file, whatever characters outside base64 (line breaks) stand in between, and nothing but a text whose UTF-8 form is what the attribute decodes to. An empty attribute gives the message that there is none; an attribute without entries raises IndexError; the first failure ends the command with its error. Without padding, an attribute decodes exactly if the number of its base64 characters is a multiple of four; what follows the padding is not looked at. pr prints for every active dataset its coordinate arrays, or its values without the axes of length one, all elements kept in order.", "quantifier": "all texts, attributes, layouts, tags and statuses", "why_tests_cant": "A test has one input file; bytes of every remainder modulo three, characters of several bytes and foreign characters at every place are not run.", "anchors": ["src/postgkyl/commands/extractinput.py:extractinput", "src/postgkyl/data/gdata.py:GData.get_input_file", "src/postgkyl/commands/pr.py:pr"]}
{"id": "C111", "title": "The recovery polynomials", "statement": "The nine recovery functions for polynomial orders 1 to 3 solve the equations of three_cell_recov.mac, which they were generated from, up to the sixteen digits of their coefficients: the function for two cells is a polynomial of degree 2p+1 with the expansion coefficients of both cells; the one with continuous values is of degree p+2, has the coefficients of its own cell and takes at both edges the value recovered there; the smooth one is of degree p+4 and takes the recovered slopes too. So the piecewise functions built from neighbouring cells are continuous, the smooth one with its derivative. All errors are below 1e-13 times the sum of the absolute values of the coefficients that go in (divided by the cell width for slopes).", "quantifier": "all cell widths, all expansion coefficients of the cells, all three orders", "why_tests_cant": "The functions have 385 coefficients of sixteen digits; a wrong digit or sign changes results only slightly or only for some inputs, and nothing calls the functions at present.", "anchors": ["src/postgkyl/data/old/recovData.py:p1e", "src/postgkyl/data/old/recovData.py:p1c1", "src/postgkyl/data/old/recovData.py:p1c0", "src/postgkyl/data/old/recovData.py:p2e", "src/postgkyl/data/old/recovData.py:p2c1", "src/postgkyl/data/old/recovData.py:p2c0", "src/postgkyl/data/old/recovData.py:p3e", "src/postgkyl/data/old/recovData.py:p3c1", "src/postgkyl/data/old/recovData.py:p3c0"]}
{"id": "C112", "title": "Integers computed through floating-point numbers are exact", "statement": "Where the code computes an integer by a true division, square root, multiplication by one half or power of doubles and then rounds it (floor, ceil, int, round), the result is the integer of exact arithmetic: floor, ceiling and truncation of a quotient of integers below 2^53; the rows and columns of a figure; the number of polar bins; the ghost cells below and above; the slices of components per dimension; the row and column indices of a line of the text dump; the number of components of a file; the d-th root of the number of points per cell, if the power function of the C library has a relative error below 2^-40. Beyond 2^53 the floor of a quotient can be too large.", "quantifier": "all integers within the stated sizes (2^53, 2^50 for square roots, 2^20 for the root), all shapes; each operation rounded to the nearest double, ties to even", "why_tests_cant": "The failing inputs of a floating-point shortcut are isolated; tests try a few small numbers.", "anchors": ["src/postgkyl/output/plot.py:plot", "src/postgkyl/tools/fft.py:fft", "src/postgkyl/data/gkyl_reader.py:GkylReader._read_t1", "src/postgkyl/data/gkyl_reader.py:GkylReader.load", "src/postgkyl/data/gdata.py:GData.write", "src/postgkyl/data/dg.py:GInterpModal", "src/postgkyl/commands/trajectory.py:trajectory", "src/postgkyl/tools/growth.py:fit_growth"]}
{"id": "C113", "title": "Twist-and-shift and downsampling in the notebook", "statement": "Every smoothing kernel consists of non-negative weights with sum one (box, also for unknown names and the default 'lanczos'; triangle; Gaussian, Hann and Blackman windows, which the clipping does not change). The filter keeps every nint-th point and gives it the weighted mean over the window around it, periodic (or constant) in y and mirrored in x; all filters stay within the range of the field; '5point' and '9point' are the same filter from 3 x 3 points on; a periodic window wider than the field is refused; a wave in y keeps phase and wave length under odd kernels, but not under a box of even length. Upsampling is linear interpolation, around the circle in y. The twist moves each row by q(x) turns: a mean of two neighbours on the circle, whole cells are a rotation; it keeps the mean and range of each row. With an integer safety factor and no shear the field comes back. The local shear of the profile is the parameter everywhere, but the curve plotted starts with 0.", "quantifier": "all fields, sizes, factors, filter names and parameters, all safety factors and shears", "why_tests_cant": "Index wrap-around, window offsets and edge handling only show for particular sizes; the notebook has no tests.", "anchors": ["notebooks/twist_shift.mo.py:filter_downsample", "notebooks/twist_shift.mo.py:q_func"]}
{"id": "C114", "title": "Splitting a pressure tensor along a magnetic field", "statement": "For every array of pressure tensors (at least six components) and non-zero fields (at least three components), over cells of any shape: getParPerp gives in each cell the pressure b.P.b/b.b along the field and half of the rest of the trace, the same numbers as tools/pressure_diagnostics.py; getAgyro gives what is left when the gyrotropic tensor with these two pressures is subtracted, has no trace and no pressure along the field; there is no other such splitting; it vanishes exactly for gyrotropic tensors. With fewer components both fail with an IndexError.", "quantifier": "all shapes, tensors and fields", "why_tests_cant": "Nine products with hand-written component numbers: a wrong one shows only for particular tensors and field directions; the module has no tests.", "anchors": ["src/postgkyl/commands/old/cglpressure.py:getParPerp", "src/postgkyl/commands/old/cglpressure.py:getAgyro"]}
{"id": "C115", "title": "The Butterworth low-pass filter", "statement": "butter_filtering(data, dt, cutoff) is refused exactly when dt is 0 (ZeroDivisionError), the cutoff is None (TypeError) or not 0 < 2*cutoff*dt < 1 (ValueError). Otherwise it returns one sample for each sample, each decided by the samples so far, and is one stable sixth-order difference equation, the bilinear transform of the Butterworth filter with the warped cut-off: a sampled sinusoid of frequency f comes out in the long run as a sinusoid of that frequency with gain 1/sqrt(1 + (tan(pi f dt)/tan(pi fc dt))^12), which is 1 at rest, 1/sqrt 2 at the cut-off and falls strictly in between; the alternating signal is removed; a signal that settles comes out settling to the same value; a bounded signal stays bounded; signals add and a delay is kept.", "quantifier": "all signals of any length, time steps, cut-offs and frequencies", "why_tests_cant": "The long-run response is a statement about infinitely many samples and frequencies; the normalisation of the cut-off by the Nyquist frequency shows only in the gain.", "anchors": ["src/postgkyl/tools/filters.py:_butter_lowpass", "src/postgkyl/tools/filters.py:_butter_lowpass_filter", "src/postgkyl/tools/filters.py:butter_filtering"]}
{"id": "C116", "title": "Loading a part agrees with selecting it, and a written part loads as itself", "statement": "For a Gkeyll field file in one or several ranges and cuts given by number (an index, 'a:b', 'a:', ':b', ':' or nothing per axis; an index, 'a:b', ':b' or nothing for the components), GData(file, z0=.., comp=..) and select on the whole file with the same arguments give the same dataset: values, nodes, bounds, cells and number of components, namely those of the requested block of the whole file. Writing that part as .gkyl and loading it again gives the same part with exactly the same values. The two ways differ for ':-1' (loading drops the last cell, selecting keeps all), for components 'a:' (select raises TypeError) and for a coordinate (loading ignores it). A file not starting with gkyl0 is refused with NameError.", "quantifier": "all files, sizes, dimensions up to six, cuts, number codings", "why_tests_cant": "The agreement of two independent implementations of slicing has to hold for every combination of cuts, and needs reader, select, push and write together.", "anchors": ["src/postgkyl/data/gdata.py:GData.__init__", "src/postgkyl/data/gkyl_reader.py:GkylReader.preload", "src/postgkyl/data/gkyl_reader.py:GkylReader.load", "src/postgkyl/data/select.py:select", "src/postgkyl/data/gdata.py:GData.push", "src/postgkyl/data/gdata.py:GData.write"]}
{"id": "C117", "title": "What the plot and animate commands make of limits, formats and other options", "statement": "--xlim, --ylim and --zlim take the first two comma-separated numbers of the text, which replace the separate limits; an empty text has no effect, a single number raises IndexError, a field that is no number ValueError. A z limit that is asked for is used as it is; one that is not asked for is the end of the common range of the scaled values when --globalrange, --multiblock or a non-zero cut-off wants it and stays open otherwise; all datasets are drawn with the same limits. --multiblock --contour without levels gives ten levels at equal distances over the range of all blocks if the values differ and their text reads back as the same number, and ValueError if they do not differ or the cut-off is 0. --arg is unpacked character by character: only a format of at most one character reaches the curve, every further (up to) three characters add a curve made of text ('*--' of the help text draws stars and a spurious curve), and on two-dimensional data any --arg or --scatter raises TypeError except for lineouts and arrows. --aspect sets the ratio with or without --fix-aspect, --no-legend alone hides the legend. A keyword has an effect exactly if it is a parameter of output.plot: --transpose and --arrowstyle have none.", "quantifier": "all option texts, values, datasets", "why_tests_cant": "The tests pass one or two options each and look at no figure; the meaning of every text and of the combinations is not covered.", "anchors": ["src/postgkyl/commands/plot.py:plot", "src/postgkyl/commands/animate.py:animate", "src/postgkyl/output/plot.py:plot"]}
{"id": "C118", "title": "The metadata of a .gkyl file are those its MessagePack bytes stand for", "statement": "For every value, every encoding of it allowed by the MessagePack format (all integer sizes, text, bytes, extensions, arrays, maps, short and long forms) is decoded to that value, and only encodings are decoded; bytes encode at most one value and no encoding continues another, so bytes after the object make the block unreadable. A repeated key of a map keeps its first place and its last value. A file whose metadata block encodes a dictionary is loaded with each entry under its own name; polyOrder and basisType are stored as poly_order and basis_type, and a basis marks the data as modal; of two spellings of the same name only the later one is kept. A block that encodes something else than a dictionary changes nothing; a block that encodes nothing makes every load raise ValueError.", "quantifier": "all values, encodings, metadata blocks, fields, contexts", "why_tests_cant": "The tests look at one key of one file.", "anchors": ["src/postgkyl/data/gkyl_reader.py:GkylReader._read_header"]}
{"id": "C119", "title": "Loading with --fv puts the nodes of a mapped grid at the corners of the cells", "statement": "For a dataset on a mapped grid, load --fv replaces the coefficients of every coordinate by an array with one node more than cells in each direction; every node is the coordinate's expansion at a corner of a cell touching it, and where neighbouring cells agree it is the expansion at that corner of every cell touching it. The values stay and the bounds in the metadata become the least and largest node of each coordinate. The nodes are those interpolate returns with one point per cell. On a plain grid of equal cells the nodes stay; unequal cells are replaced by equal ones. With mapped velocities the command ends with a message, on grids of other types, such as time traces, with IndexError. The grid keeps the type of coefficients, so a later one-dimensional interpolation fails. With two or more points per cell interpolateGrid leaves out the upper end of the domain. Several files are loaded in order and the first failure ends the command.", "quantifier": "all datasets, dimensions, numbers of cells, coefficients, bases, lists of files", "why_tests_cant": "No test uses --fv or interpolateGrid.", "anchors": ["src/postgkyl/data/dg.py:GInterpModal.interpolateGrid", "src/postgkyl/commands/load.py:load", "src/postgkyl/data/gdata.py:GData.set_grid"]}
{"id": "C120", "title": "A plotted file shows the DG field at the place where it is drawn", "statement": "From the bytes of a .gkyl field file to the calls of Matplotlib: 'pgkyl file interpolate plot' divides the domain along each axis into as many equal parts as the interpolation has points, and draws at the centre of each part (curve in one dimension, colours between the edges of the parts or contours through their centres in two) the value there of the piecewise polynomial field whose coefficients the file holds, for every whole field of the file, shifted and scaled as asked. Family and order are those of the options or else of the metadata. A point inside a cell has one value. Three or more dimensions are refused with ValueError. The poloidal flux drawn by gk_nodes is likewise the field of its file in the tensor family of order 2; a file whose metadata name another basis is drawn in that family all the same. A file that does not begin with gkyl0, and that no other reader takes, is refused with a NameError.", "quantifier": "all well-formed field files, cells, coefficients, bounds, metadata blocks, families, orders, numbers of points, plot options", "why_tests_cant": "Image comparisons would need exact reference pictures; no test follows a value from the file to its place in a plot.", "anchors": ["src/postgkyl/data/gkyl_reader.py:GkylReader.load", "src/postgkyl/commands/interpolate.py:interpolate", "src/postgkyl/data/dg.py:GInterpModal.interpolate", "src/postgkyl/output/plot.py:plot", "src/postgkyl/utils/gk_utils.py:read_interp_gfile", "src/postgkyl/commands/gk_nodes.py:gk_nodes"]}
{"id": "C121", "title": "Tools take a dataset, an array or a pair alike, and nothing else", "statement": "input_parser accepts a dataset, an array, or a tuple or list of exactly two items of which the first is a list and the second an array with as many axes as the list has entries or one more; it returns grid and values unchanged. A pair that does not fit raises ValueError, everything else TypeError. So a tool of one input gives the same for every way of handing in the same data, and its result can be handed to the next tool as it is if the grid is a list. The ten-moment pressures are those of the pressure tensor and of components 3 to 5 of the field, on the grid of the field, however the data are handed in with a list of coordinates. It does not hold for bare arrays, though each step accepts them: their grid is an empty tuple, which the next tool refuses, and the ten-moment diagnostics always fail on them.", "quantifier": "all Python objects handed in, arrays, grids, tools, fluids, fields", "why_tests_cant": "Tests pass datasets; the other accepted inputs and the refused ones are endless combinations, and chaining through a bare array is not tried.", "anchors": ["src/postgkyl/utils/input_parser.py:input_parser", "src/postgkyl/tools/pressure_diagnostics.py:get_gkyl_10m_p_par", "src/postgkyl/tools/pressure_diagnostics.py:get_gkyl_10m_p_perp", "src/postgkyl/tools/prim_vars.py:get_pij", "src/postgkyl/tools/mag_sq.py:mag_sq"]}
{"id": "C122", "title": "From file to number: integrating an interpolated field", "statement": "`pgkyl file interpolate integrate 0,1,...` over all axes, of a Gkeyll file written byte for byte: for every family and order of basis the command gives, for each field, the sum over the equal parts of the domain of the value of the discontinuous Galerkin field at the centre of the part times the volume of the part, and one coordinate per axis, the middle of the domain. For order one of the serendipity, maximal-order and tensor families this is the integral of the field over the domain, in any number of dimensions up to six and for any number of points per cell. From order two on it need not be: a file is given whose field has an integral of almost zero and for which less than -1/10 is printed. A file that does not begin with gkyl0, and that no other reader takes, is refused with a NameError.", "quantifier": "all files, domains, cell counts, coefficients, families and orders, numbers of points, fields of the file", "why_tests_cant": "The number printed can be compared with the integral only by an independent quadrature of the polynomials in every cell; tests compare with stored numbers for a few files.", "anchors": ["src/postgkyl/commands/interpolate.py:interpolate", "src/postgkyl/commands/integrate.py:integrate", "src/postgkyl/tools/calculus.py:integrate", "src/postgkyl/data/dg.py:GInterpModal.interpolate", "src/postgkyl/data/gkyl_reader.py:GkylReader.load"]}
{"id": "C123", "title": "Files that lost their end", "statement": "A file whose end is missing (a simulation still writing it, a full disk, an interrupted copy) is never loaded as if it were complete. If any number of bytes is cut off the end of a field file, of a distributed file or of a file written by postgkyl, loading it is an error. A cut file of time traces is loaded only if it was cut between two chunks, and then it is the file of the chunks before the cut. Bytes after the end of a complete field file change nothing. When only part of a cut field file is requested and is loaded, then the grid, the bounds, the metadata and the shape are those of the complete file, and so are the values with the possible exception of the very last cell read, whose components may all be equal to the first of them; with one component requested everything is as in the complete file. That exception occurs: a file is given which lost its last two numbers and is loaded without complaint with wrong values. A file written by postgkyl is not loaded when bytes follow its end.", "quantifier": "all files of the documented layouts and of the writer, all cut positions, all selections, all metadata and contexts", "why_tests_cant": "One would have to cut every kind of file at every byte for every selection; the failing case needs several components and a cut inside the last cell.", "anchors": ["src/postgkyl/data/gkyl_reader.py:GkylReader.load", "src/postgkyl/data/gkyl_reader.py:GkylReader._get_data", "src/postgkyl/data/gkyl_reader.py:GkylReader._get_block", "src/postgkyl/data/gkyl_reader.py:GkylReader._read_t2_v1_data", "src/postgkyl/data/gdata.py:GData.write"]}
{"id": "C124", "title": "Interpolating a part of a file", "statement": "Taking a part of a file while loading it (options --z0 to --z5 and --component) and then interpolating gives the same as interpolating the whole file and taking the part: the cell edges are those of the interpolated whole, and the value in each of the small cells is that of the discontinuous field of the whole file at its centre. So the curves and the coloured rectangles in the plot of a part are stretches of those in the plot of the whole. It holds for files in one piece and for files distributed over ranges, which give the same result. The part must have at least one whole field, and its components must begin with the first coefficient of a field. A file that does not begin with gkyl0, and that no other reader takes, is refused with a NameError.", "quantifier": "all well-formed field files with cells of positive size, all cuts that select something, all families, orders and numbers of points that are modelled, all plot options", "why_tests_cant": "Fields, cuts, offsets and refinements vary independently; a wrong offset shows only when the part does not begin at the first cell or field.", "anchors": ["src/postgkyl/data/gkyl_reader.py:GkylReader._get_data", "src/postgkyl/data/gkyl_reader.py:GkylReader._get_block", "src/postgkyl/data/gkyl_reader.py:GkylReader._preload", "src/postgkyl/data/dg.py:GInterpModal.interpolate", "src/postgkyl/commands/interpolate.py:interpolate", "src/postgkyl/output/plot.py:plot"]}
{"id": "C125", "title": "Slopes from a file to the plot", "statement": "The differentiate command on a field file gives a grid that divides the domain into equal cells, as many for each cell of the file as points are asked for, and the value at the centre of each is the derivative of the discontinuous field of the file there with respect to the coordinate along the axis asked for (negative axis numbers count from the last). When no axis is named there is one component per axis; each is the derivative along its axis except the first, which is half of it. Only the first field of the file is differentiated. The curve in one dimension and the coloured rectangles in two show these numbers at these places. It holds for files in one piece and distributed ones. The functions differentiated are those that interpolation uses; for a family and order without such functions the command fails, and family names other than ms, ns and mo are refused. A file that does not begin with gkyl0, and that no other reader takes, is refused with a NameError.", "quantifier": "all well-formed field files with cells of positive size, all modal families and orders that are tabulated, all numbers of points, axes and plot options", "why_tests_cant": "The slope is compared with the bytes of the file through coordinates, coefficients and tables; a factor (like the half of the first component), a wrong cell width or axis gives plausible pictures.", "anchors": ["src/postgkyl/commands/differentiate.py:differentiate", "src/postgkyl/data/dg.py:GInterpModal.differentiate", "src/postgkyl/data/computeDerivativeMatrices.py:createDerivativeMatrix", "src/postgkyl/output/plot.py:plot"]}
{"id": "C126", "title": "The time trace of integrated files", "statement": "Several field files of a run, interpolated, integrated over all axes and collected, give a dataset whose first axis holds the time stamps of the files in ascending order and whose rows hold, for each file at its place in that order, the integrals of its fields: for order 1 the exact integral over the domain, for any order the sum over equal parts of the value at the centre times the volume. Plotted, this is one curve for each field through the points (stamp, integral). The stamp is the time in the metadata, or, if that is zero or nil, the frame number, or, if that is zero or nil too, the position of the file; so the axis need not hold the times. A file without a time, or with a zero time and no frame, makes the command fail with a KeyError, different numbers of fields with a ValueError. So does, with a NameError, a file among them that does not begin with gkyl0 and that no other reader takes.", "quantifier": "all non-empty lists of well-formed field files (in one piece or distributed) of the same dimension, all modal families and orders that are tabulated, all plot options, any sort that np.argsort may perform", "why_tests_cant": "The trace combines stamps from the metadata, an unspecified sort and integrals of many files; a row paired with the wrong stamp, or a zero time replaced by a frame number, gives a plausible curve.", "anchors": ["src/postgkyl/commands/collect.py:collect", "src/postgkyl/commands/integrate.py:integrate", "src/postgkyl/commands/interpolate.py:interpolate", "src/postgkyl/tools/calculus.py:integrate", "src/postgkyl/output/plot.py:plot"]}
{"id": "C127", "title": "The grid of a file in double precision", "statement": "With every operation rounded to a double, the grid read from a field file runs from the stored lower to the stored upper bound exactly, is in ascending order, stays between the bounds, and each node differs from the exact cell edge by at most 2^-53 (4 (up - lo) + max(|lo|, |up|)); no two nodes fall together if the cells are wider than twice this error. It holds for bounds that are doubles, at most 2^50 cells, and cells not narrower than 2^-1021; the reader then computes what numpy's linspace does. A part of a file of doubles starts at exactly the node of the whole; its other nodes are within twice the error of the exact edges and three times the error of the nodes of the whole, but need not be equal to them. For narrower cells the nodes can pass the upper bound.", "quantifier": "all well-formed field files, in one piece or distributed, all bounds and cell counts in the stated range, all cuts", "why_tests_cant": "The error of a grid depends on the bounds, the count and the node; tests with round numbers such as 0 to 1 in 8 cells show no error at all.", "anchors": ["src/postgkyl/data/gkyl_reader.py:_read_t1t3_v1_domain", "src/postgkyl/data/gkyl_reader.py:load"]}
{"id": "C128", "title": "Selecting by coordinate from a file of doubles", "statement": "With the grid of a file computed in double precision, selecting by a coordinate (a number or a text such as 0.25) gives one cell, its two nodes and its values as they are in the file. The coordinate lies between the exact edges of that cell up to the rounding error of the nodes (that of C127); a coordinate farther than this from every edge selects exactly the cell that contains it; one at or below the lower bound selects the first cell, one above the upper bound the last. A coordinate nearer to an edge can select the neighbouring cell. The cells must be wider than twice the rounding error.", "quantifier": "all well-formed field files of up to six dimensions, in one piece or distributed, all axes, all coordinates", "why_tests_cant": "Whether rounding matters depends on the bounds, the number of cells and how near the coordinate is to an edge; a test with a few coordinates in the middle of cells never meets it.", "anchors": ["src/postgkyl/data/select.py:select", "src/postgkyl/data/idx_parser.py:_find_nearest_index", "src/postgkyl/data/idx_parser.py:idx_parser", "src/postgkyl/data/gkyl_reader.py:load"]}
{"id": "C129", "title": "The digits of the text dump", "statement": "Each number of the text dump is written with a sign when negative, one digit (zero for zero only), the point, fifteen digits and an exponent of at least two digits. Read again as decimal text, a line gives the centres and values of its cell, each as the nearest number of sixteen digits (half-way cases to the even digit), so within a relative error of half of 10^-15, and the order of two numbers is never reversed. A double that stands for a number of at most sixteen digits is read back as the same double. Other doubles need not be: 0.1+0.2 is read back as 0.3; with seventeen digits every double would come back.", "quantifier": "all numbers (rational, so all finite doubles), all numbers of digits, all datasets that the dump of C14 handles", "why_tests_cant": "A test compares a few printed numbers; that the text determines the number up to the stated error, and whether it is read back exactly, depends on every digit of every double.", "anchors": ["src/postgkyl/data/gdata.py:write"]}
{"id": "C130", "title": "Integration in double precision", "statement": "Computed with doubles, and whatever the order in which np.dot and mean add up (products rounded on their own or together with an addition), the integral over distinct axes exists, has the shape of the exact one, and differs from the exact sum of values times widths by at most ((1+u)^N - 1) times the integral of the absolute values plus (1+u)^N times P half-units of the smallest double; u is 2^-53, N counts one rounding per value along each integrated axis and one more per axis, and P is the product of (length + number of values) of these axes. With N u at most one half this is at most 2 N u relative, and for values of one sign relative to the integral itself. The remaining coordinate is near the mean. The result is not determined by the data alone: two orders of addition can give different doubles.", "quantifier": "all orders of addition for every axis and position, all data and coordinates that are doubles, all grids that never decrease (uniform or not, at cell edges, at points, or of one point), all sets of distinct axes", "why_tests_cant": "A test runs one library on one machine and compares with a tolerance chosen by hand; the bound has to hold for every order of the additions and all data.", "anchors": ["src/postgkyl/tools/calculus.py:integrate"]}
{"id": "C131", "title": "Interpolation in double precision", "statement": "Computed with doubles, whatever the order in which np.tensordot adds up and with basis functions evaluated with an error of at most delta, interpolating modal data gives at every point of the refined mesh a double that differs from the expansion of its own cell at the exact centre of its part by at most ((1+u)^n - 1) times the sum of the terms without signs plus (1+u)^n times (delta times the sum of the absolute coefficients plus n half-units of the smallest double), n being the number of basis functions and u = 2^-53. For the tabulated functions, evaluated with each literal and operation rounded in any order and grouping, delta is at most 2^-34, and 2^-39 except for tensor bases. The points of the matrix are within 5u of the centres. The returned grid starts at the first node, ends at the last node, ascends, and its nodes are within a few units in the last place of the edges of the parts. The error is not bounded relative to the value itself: where the terms cancel, 0 is computed for an expansion that is not 0.", "quantifier": "all bases and orders of the tables, all numbers of cells, components and interpolation points (below 2^52), all coefficients, all orders of addition, all evaluators of the stated accuracy, all non-mapped grids whose cells are not tiny", "why_tests_cant": "A test compares a few values with a tolerance chosen by hand on one machine; the bound has to hold at all points, for all coefficients and for every order of the additions.", "anchors": ["src/postgkyl/data/dg.py:_interpOnMesh", "src/postgkyl/data/dg.py:GInterpModal.interpolate", "src/postgkyl/data/computeInterpolationMatrices.py:createInterpMatrix"]}
{"id": "C132", "title": "The integral of interpolated data in double precision", "statement": "Interpolating modal data and integrating the result over all axes, all in doubles and whatever the order in which numpy adds up, gives for each component one double x. With N = steps (the parts along each axis plus one, added over the axes), u = 2^-53, eps the displacement of the nodes relative to the size of a part, E = (1+eps)^dim and A = (1+u)^N: x differs from the volume of a part times the sum of the expansion at the centres of all parts by at most (A E - 1) times the volume times the sum of the absolute values there, plus A E times the volume times the sum of the errors of interpolation (C131), plus A times (product over the axes of length plus number of parts) times half of the smallest double. No axis, or the text '0,1,...', gives the same number. For order one of the serendipity, maximal-order and tensor families the sum over the centres is the Riemann integral of the expansions over the domain, so x is that integral within the same bound.", "quantifier": "all bases and orders of the tables, all numbers of cells, components and interpolation points, all coefficients, all orders of addition, all evaluators of the stated accuracy, all non-mapped grids whose cells are not tiny, all eps that cover the displacement of the nodes", "why_tests_cant": "A test sees one file and one order of additions and compares with a tolerance; the bound has to hold for every number of cells, every coefficient and every order of the additions, and it joins two commands that are tested separately if at all.", "anchors": ["src/postgkyl/commands/interpolate.py:interpolate", "src/postgkyl/commands/integrate.py:integrate", "src/postgkyl/data/dg.py:GInterpModal.interpolate", "src/postgkyl/tools/calculus.py:integrate"]}
{"id": "C133", "title": "Slopes in double precision", "statement": "Differentiating modal data along one axis in doubles, whatever the order in which np.tensordot adds up and with the derivatives of the basis functions evaluated with an error of at most delta, gives at every point of the refined mesh a double x near the derivative D of the expansion of the point's own cell, with respect to the physical coordinate, at the exact centre of the part, for a cell as wide as the first one: |x - D| <= 4u |D| + (1 + 4u) (2 / width) e + t, where e is the error of the inner product (as in C131, for the derivatives of the functions), u = 2^-53 and t is half of the smallest double. Without a direction there is one component per axis, and component k is near the derivative along axis k in the same sense (5u, and halves of the smallest double for the rounded factor 2 / width), except that component 0 is near half of the derivative along axis 0, as the code leaves out the factor two there (C36).", "quantifier": "all non-hybrid modal bases and orders of the derivative tables, all axes counted from either end, all numbers of cells and interpolation points (below 2^52), all coefficients, all orders of addition, all evaluators of the stated accuracy, all grids whose first two nodes are ascending doubles", "why_tests_cant": "A test compares a few slopes with a tolerance chosen by hand; the bound has to hold at all points, for all coefficients, widths and orders of the additions.", "anchors": ["src/postgkyl/data/dg.py:GInterpModal.differentiate", "src/postgkyl/data/dg.py:_interpOnMesh", "src/postgkyl/data/computeDerivativeMatrices.py:createDerivativeMatrix"]}
{"id": "C134", "title": "Squared magnitudes and relative changes in double precision", "statement": "The squared magnitude of components a to b-1, computed in doubles whatever the order in which np.sum adds, is a double that is not negative and off from the exact sum S of the squares by at most ((1+u)^(n+1) - 1) S + (1+u)^n n t for n = b - a components, where u = 2^-53 and t is half of the smallest double; no purely relative bound holds. The relative change of doubles, with respect to the same component or to one reference component, is off from the exact quotient Q by at most (2u + u^2) |Q| + t, and is exactly 0 where the value did not change; with respect to the same component it is 0 only there, while with a reference component a change may underflow to 0.", "quantifier": "all arrays, all ranges of components inside the array, all orders of addition, all reference components counted from either end, all doubles with non-zero references", "why_tests_cant": "A test compares a few values with a tolerance chosen by hand; the bounds have to hold for all doubles, also those whose squares vanish, and for every order of the additions.", "anchors": ["src/postgkyl/tools/mag_sq.py:mag_sq", "src/postgkyl/tools/rel_change.py:rel_change"]}
