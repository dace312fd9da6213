# Verification of postgkyl: design

The code in /repo is Python. This directory holds a Rocq (Coq 8.16.1) model of
parts of it, written function by function from the source text, with proofs of
the properties listed in `properties.jsonl`. The Python code was never run.

## Layout

`rocq/theories/` (logical name `Verif`); for each area:

* `X_Model.v`: executable model; every definition cites file and lines of
  /repo (paths relative to `/repo/src/postgkyl`) and says what is simplified.
* `X_Spec.v`: specification vocabulary for the larger areas, written
  independently of the model's helpers (smaller areas have it in `X_Props.v`).
* `X_Proofs.v`: lemmas.
* `X_Props.v`: the property theorems with their small specifications, a
  concrete non-trivial `Example` per theorem, `Print Assumptions`.

Shared: `Prelude.v` (Python-like results, strings, slices), `NdArray.v`
(row-major n-d arrays).

Python exceptions are values of a result type; `click`'s `ctx.fail` and `quit()`
are error values too. Loops are structural recursion or folds.
Where the code violates a property as a user would state it, the violated form
is proved as a theorem named `..._refuted` (existence of a concrete
counterexample), and the property is proved under the exact condition under
which it holds.

## Trusted base

* the Coq kernel (8.16.1), including `vm_compute`;
* what `Print Assumptions` lists for each theorem: "Closed under the global
  context" except for theorems about real numbers, which list the standard
  axioms of Coq's `Reals` (`ClassicalDedekindReals.sig_forall_dec`,
  `ClassicalDedekindReals.sig_not_dec`,
  `FunctionalExtensionality.functional_extensionality_dep`) and, where
  Coquelicot's integrals or derivatives occur, `Classical_Prop.classic`;
* the reading of the Python text made by the model (no extraction, no test
  against the running code is possible in the sandbox);
* the semantics of the numpy/click calls used, as written in the model.

As a check on that reading (tests, not proofs), `Conform_Tests.v` runs the models
on bytes of the project's own test files (`Conform_Data.v`, from
/repo/tests/test_data) and compares with the outcomes expected in /repo/tests:
loading, partial loading, metadata, mapped grids, `select`, modal interpolation
with and without mapping.

## Not modelled

Floating-point rounding, NaN and infinity (arithmetic properties are over exact
reals or rationals; data movement properties treat numbers as opaque bit
patterns and so are exact; integers computed through doubles are treated with rounding in C112,
the FLASH mesh in C50, the grid of a Gkeyll file and selecting from it in C127 and C128, the digits of the text dump in C129,
integration in C130, interpolation in C131, both in C132, differentiation in C133); matplotlib itself (the model ends at the arguments of its calls and its shape checks); msgpack decoding
is an arbitrary function that the theorems about files quantify over, and modelled in C118; ADIOS and HDF5 libraries;
SciPy fitting; the FFT is its defining sum.
In the pipelines that start from the bytes of a file (C120, C122, C124-C128) only the gkyl
reader is tried; files that the ADIOS, HDF5 or FLASH readers accept are outside these models.

## Properties: what is modelled and how it is proved

| property | model | method |
|---|---|---|
| C01, C02 | byte-level reader of `.gkyl` type 1 and the writer; integers as 8 little-endian bytes, floats as opaque 8-byte (4-byte) words | round trip against an encoder written from the format comment at the head of gkyl_reader.py |
| C03 | type-3 reader: zero array and per-range slice assignment | induction over the list of ranges, per-cell characterisation |
| C04 | type-2 loop over chunks with explicit end-of-file test | induction over chunks |
| C05, C06, C08 | offsets from cut strings, recursive skipping reader `_get_block` | recursion equals slicing, induction over dimensions |
| C07 | bounds arithmetic and linspace over exact rationals | algebra |
| C09–C12 | searchsorted, `idx_parser`, `select` over rationals (finite doubles are rationals and comparison is exact); mapped grids with index and slice cuts (`Select_Props2.v`) | per-index characterisation, induction over dimensions |
| C13, C15 | metadata cache of GData | invariant over operation histories |
| C14 | line-number decomposition of the txt writer | mixed-radix bijection |
| C51, C52 | names kept in the metadata; names of output files | case analysis over strings |
| C16–C19 | DataSpace as ordered association list tag -> list of datasets; the lazy generator as a loop whose body may change the data space | induction over tags/histories |
| C48, C53, C54 | loop shape of the dataset commands, of the pair commands and of write.py | folds over the visited datasets |
| C20–C23 | command lookup, load options, wildcard sort, load queue | case analysis, sortedness and permutation, history invariant |
| C24–C28 | the ev stack machine with its three stacks; `_compare` may fail (`py_compare` models it on arrays, tuples, numbers and strings), so C24 and `C25_succeeds` require comparable metadata | compiler-correctness style induction over expressions; frame conditions; `C24_blanks`: any layout of blanks between tokens |
| C29, C30 | collect: time stamps, argsort (any function returning a sorting permutation), chunks, the new datasets; the label is an arbitrary string | induction over the frames; per-index characterisation of the stacked array; permutation and sortedness |
| C31–C33 | strided interpolation writes, mesh refinement, component slices | per-index characterisation |
| C34 | the tables of dg.py | counting specification, `vm_compute` over all entries |
| C35, C36, C55 | the polynomial tables of computeInterpolationMatrices.py and computeDerivativeMatrices.py, translated mechanically from the source text by `tools/gen_dg_tables.py` to the expressions `Dg_TabI.v`, `Dg_TabD.v`; sympy's differentiation and evaluation as functions on these expressions | exact rational integration by `vm_compute` for all pairs of functions of all tables, lifted to Coquelicot integrals and derivatives and to all coefficient vectors |
| C56 | the overlapping strided writes of the mapped case | the last write to a node wins; induction over dimensions |
| C57 | `_get_basis_p` | case analysis over all tables |
| C37–C42, C44, C58 | prim_vars, pressure_diagnostics, parrotate, mag_sq, rel_change, energetics and rotation_matrix on real arrays with a component axis: slicing, broadcasting, squeezing and assignment of components (`Tools_Arr.v`); the grid is passed through unchanged and not modelled; division by zero is excluded by hypotheses; perprotate subtracts a tuple from an array, modelled as the ValueError of numpy 1.24 and later | value of every cell of every shape, real algebra |
| C43, C59–C61 | integrate, ev int/avg/len, np.gradient with second-order edges and ev grad/div/curl on n-d arrays of reals with one coordinate list per axis (mapped grids, grad2 and the warnings are not modelled) | per-index characterisation by induction over the axes; Fubini for finite sums; numpy's formulas are Lagrange slopes; difference operators along different axes commute |
| C45, C46 | gkeyll_enums.py, the block selection of gk_utils.py; the number of files matching a pattern is an argument | case analysis over the text; Python's slice as an inductive relation |
| C49, C62 | gk_particle_balance and gk_energy_balance over an arbitrary file system (functions from names to integrated moments, scalars and match counts); files are time stamps and rows of reals; labels, reference lines and the drawing are not modelled except that drawing fails for arrays of different length | loop invariants: the running arrays are the sums over the blocks read so far |
| C63, C64 | the frame selection and the edge reconstruction of gk_distf; the directory is a list of names; loading and dividing by the Jacobian is not modelled here | sortedness and membership; per-entry characterisation |
| C47 | figure layout and choice of panels of plot.py and of plot --subplots; a figure is the list of its axes, what is drawn inside is not modelled; np.sqrt is the exact root | integer arithmetic; induction over components and datasets |
| C50 | `_read_frame` over exact rationals; the tables are a list of blocks; `FloatQ_Model.v`: the same with every operation rounded to a double | reduction to integers on the lattice; the last assignment wins |
| C65 | params.py on real arrays; metadata as a partial function from keys to reals | value of every cell, real algebra with square roots |
| C66 | laguerre_compose.py on real arrays, grids as lists of nodes | per-index characterisation; improper integrals (Coquelicot) of exponentials |
| C67 | transform_frame.py: the node meshes and the shift of each velocity mesh, for one configuration dimension; the other branches index one-dimensional coordinates with several indices and fail | per-index characterisation by induction over the velocity dimensions |
| C68, C70 | accumulate_current.py; the loops of current.py and val2coord.py (`Spawn_Model.v`), which add datasets while iterating | induction over the visited datasets; column ranges through the slice relation |
| C69 | the `zip` loop of laguerre_compose.py and transform_frame.py; the result of `--tag` is built and never added | fold over the pairs |
| C71 | the kernels of modalDG/kernels, translated operator by operator from the source text by `tools/gen_kernels.py` to `Kern_Tab.v`; `^` on floats is a TypeError; evaluation per cell over exact reals | kernels and tables as polynomials with integer coefficients over 10^90, compared by `vm_compute`, lifted to all points and coefficients |
| C72, C73 | `_create_offset_count`, `_load_frame`, `preload` of the ADIOS reader; a file is its attributes and variables, a block read is refused by the library when it leaves the variable (assumed); ghost adjustment of both readers | induction over the axes on top of the index-parser lemmas; exact rationals for bounds and nodes |
| C74 | `_load_diagnostic`: natural sort by text and numbers, concatenation | key of a name computed for all numbers; sorted permutations are unique |
| C75 | `GkylH5Reader.load`; the context enters as "has entries" | direct, all inputs |
| C76 | the splitting of mapping arrays in gkyl_reader.py 498-538 and gkyl_adios_reader.py 228-246 (the quotient of components by dimensions is exact) | index arithmetic on row-major arrays |
| C77 | the loop over the readers in `GData.__init__` and the calls of their methods; `is_compatible` is an arbitrary function that may raise | induction over the readers tried |
| C78 | `_data` of ev.py: splitting a token into name, brackets and key, then the data-space iteration | text lemmas for the token form composed with the selection theorem of C25 |
| C79 | dot, max, min, mean of ev_cmd.py over exact rationals | induction over the flat array |
| C80, C81 | grad2 and scale_comp of ev_cmd.py (`EvCmd_Model.v`); grad2 over reals with numpy's `gradient` for non-uniform coordinates | loop invariant on the filled columns; counting how often a component is named |
| C82 | scale_zi_axis with the coordinate arrays in a heap (`*=` changes the array every dataset holding it sees), then `push` | induction over the selected datasets |
| C83, C84 | interpolate.py and differentiate.py per dataset (`DgCmd_Model.v`: options, choice of modal or nodal object, pushing the result); the loop over datasets is C53; stored HDF5 matrices are an argument | composition of C31, C32, C33, C34, C36, for nodal data of C55 (`DgCmd_Props.v`); `C56_grid` composes C56 and C57 with the tables over the reals |
| C85 | set_frame.py: shortest name, first differing character, number up to the next underscore or extension, writing by position | text lemmas for the position of the first difference; loop invariant for the writes |
| C86 | `GData.set_neighbors` on uniform grids over exact rationals; a neighbour is a reference (tag and position); mapped grids are modelled as an error | the loop keeps the last dataset on each side; without overlap there is at most one |
| C87 | commands/select.py 37-136 (`Multi_Model.v`): starting block, the while loop along the upper neighbours (bounded by fuel, the theorems say how much is needed), np.append, np.unique, pushing the line; the missing tag `None` is the empty tag | composition of C10, C86 and the data-space lemmas; induction along the chain of blocks; sorted concatenation for np.unique |
| C88 | zip over suspended iterators (`Zip_Model.v`: position list copied when a tag is reached, tags listed at the first next, advanced from the left), commands agyro and mom_agyro with their choices and default tag, input_parser for pairs of grid and values | invariant over the suspended iterators (what is still ahead does not change when a dataset is added under a tag not ahead), then the loop is a fold over the rows; C41 and C38 for the values |
| C89 | commands/energetics.py | the same loop with three iterators, C44 for the values, deactivation of three tags |
| C90 | `Draw_Model.v`: output/plot.py 28-57, 138-208 and 338-481, from the dataset to the arguments of the matplotlib calls (plot, contour, quiver, streamplot, pcolormesh with its limits and extension) and matplotlib's checks of their shapes | squeeze of the one-cell axes, cell centres, shift and scale and transposition as functions of the index (`holds`), one lemma per drawing mode, fold over components with the limits as state; mapped grids by induction over the averaged axes; two `_refuted` witnesses |
| C91 | the branch of plot for pairs (143-159) | number of cells read off the grid, reduced to C90's function; shape check of the curve for edge grids and for values without component axis |
| C92 | `Range_Model.v`: the loop collecting extremes, np.sort, np.percentile (linear) and the defaults of zmin/zmax in commands/plot.py 168-203, and the same in animate.py 59-86 | invariant over the loop (`tracks`: running extremes are the least and largest so far; `extremes`: list of both per dataset), sortedness and interpolation of the sorted list; one `_refuted` witness for --zshift |
| C93 | `PlotCmd_Model.v`: commands/plot.py 115-297 over a model of pyplot (numbered figures, current figure, written files); drawing is taken to succeed, --xlim, --no-legend and the contour levels are in `PlotOpt_Model.v` (C117) | induction over the datasets with an invariant on figures, current figure, files and file name, one for new figures (`own_loop`) and one for any given figure numbers (`shared_loop`); corollaries for the last file written under a name; four `_refuted` witnesses |
| C94 | `Anim_Model.v`: commands/animate.py 10-86 and 198-372: limits, lists of frames, calls of plot with title, colour bar and limits, names of movies and pictures, and what plt.show draws afterwards with the shared options | induction over frames with the limits as state (`run_fixed`, `run_float`), over tags with an invariant on the limits of y (`tag_anims_spec`), fold over the datasets for the frame numbers set by set_frame (`frames_set`), partition by frame number as a permutation; C92 for the range; four `_refuted` witnesses |
| C95 | `Label_Model.v`: output/plot.py 210-237, 258-367, 419-429, 480-527: labels, titles, levels, colour bars, legend, scales and limits as calls on matplotlib objects, with the variables the loop over components overwrites | readings of the events per panel (`Label_Spec.v`) are homomorphisms of append; the state left by a component does not change the next one (`draw_again`), so the loop is a list of independent components, each on its own panel (`panel_shows`); labels by splitting off underscores; levels by field arithmetic on Q; three `_refuted` witnesses |
| C96 | `Fft_Model.v`: tools/fft.py whole, with scipy.fft written out over complex numbers (Coquelicot) | orthogonality of the waves by the geometric sum (`Fft_Dft.v`) gives inversion and Parseval for one axis, induction over axes for boxes (`Fft_Proofs.v`); the specification evaluates plane waves at coordinates (`Fft_Spec.v`); three `_refuted` witnesses |
| C97 | tools/init_polar.py, tools/polar_isotropic.py in `Fft_Model.v` | the loops over modes are sums over the index box; the bin of a mode is unique (`Fft_Props3.v`), compared with the membership defined by distance to multiples of dk; bound on the wave number by the diagonal for the empty half; `C97_first_bin_refuted` on constant data |
| C98 | tools/filters.py 18-57 in `Fft_Model.v` (cutoff given) | the transform of the result is the transform of the data where kept (`filter_spectrum`); equality of data from equality of transforms; conjugate pairs k, n-k for real data; Parseval for energy |
| C99 | `Growth_Model.v`: tools/growth.py, commands/growth.py for one dataset; curve_fit is an argument | the loop over regions keeps the first best round (induction over the regions), compared with a choice stated over all rounds; real arithmetic for exact exponentials; the command by cases on the shape; two `_refuted` witnesses |
| C100 | `Listing_Model.v`: commands/listoutputs.py; the directory is a list of names | string lemmas for endings, `strip_number` against "ends in an underscore and digits"; insertion sort of unique stems is the only strictly sorted list with these elements, hence independence of the order of the directory |
| C101 | `Style_Model.v`: utils/load_style.py, commands/style.py, pgkyl.py 131-133, output/plot.py 90-136; eval, validation, plt.style.use, plt.xkcd are arguments | `C101_line` characterises parsing by decomposition of the line; assignments are "last one wins" by induction; print/load round trip; settings of a plot as an inductive "asked for" relation; three `_refuted` witnesses |
| C102 | `Diag_Model.v`: tools/calc_ke_dke.py; reading a file is an argument | the two loops over frames by induction on the remaining frames, with the contents of the shared array after each step; two `_refuted` witnesses |
| C103 | `Diag_Model.v`: tools/calc_enstrophy.py with np.gradient (edge_order 2) and np.trace written out | loop over frames by induction (last layers of the scratch array stay 0); `difference` is the slope of the parabola through three points, shown unique; rigid rotation is the `_refuted` witness |
| C104 | `Grid_Model.v`: commands/grid.py with np.meshgrid, and GData.push | the loop over coordinates fills the components; a node is described by its index; second application by the same theorem |
| C105 | `Info_Model.v`: GData.info (data/gdata.py), commands/info.py, utils/gkeyll_enums.py; float formatting is an argument | the text is the join of explicit lines (`join_split_at`); the extreme found by the left-to-right search is the first in lexicographic order since row-major position is monotone; command by the loop lemma of DataSpace; two `_refuted` witnesses |
| C106 | `RelCmd_Model.v`: commands/relchange.py over any function on two datasets; `C106_tool` puts tools/rel_change.py in | invariant of the loop over one tag (which datasets have been replaced, the reference among them), induction over the tags |
| C107 | `Distf_Model.v`: commands/gk_distf.py on top of the interpolation of `Dg_Model.v`; reading a file is a function argument | evaluation of the interpolated values by C36, broadcasting of the Jacobian over the velocity axes, induction over the axes for the position map; refinement to the independent expansion |
| C108 | `Nodes_Model.v`: commands/gk_nodes.py with read_gfile and GData.push; the figure is a list of artists, its boxes and the datasets; reading files and [float] are function arguments | slices and squeeze evaluated per dimension, induction over the blocks, the joined points of the artists characterised by neighbouring nodes; refutation of the bounds by a 2x2 block |
| C109 | `Traj_Model.v`: commands/trajectory.py, the calls to matplotlib as the data they are given; interval, aspect, view angles and axis labels are left out | induction over the datasets and the frames; arithmetic of the jump; refutations by a track of four positions and by 5 positions in 3 frames |
| C110 | `Extract_Model.v`: commands/extractinput.py, pr.py and gdata.py 180-188; binascii.a2b_base64 (the state machine of CPython, not strict) and the strict UTF-8 codec are written out from their documentation; ADIOS2 is a parameter | the codecs against relations after RFC 3629 and RFC 4648, by induction on these and on the length; the commands through the loop over datasets (`C110_each`) |
| C111 | `Recov_Model.v`: data/old/recovData.py, the terms of the nine functions as tables in the order of the source | linear functionals (integral against the exact orthonormal Legendre basis, value, derivative) of a table reduce to rational weights of each entry (`value_parts`), which are compared with 0 or 1 by computation; real analysis with Coquelicot |
| C112 | `Float_Model.v`: the integer results of divisions, square roots, products and powers of doubles, each operation rounded by Flocq's binary64 rounding; `FloatQ_Model.v`: the same rounding as a computable function on rationals; overflow, infinities and NaN are left out | an integer below 2^53 is a double and rounding is monotone, so a quotient stays between its integers; relative error of division against the distance to the next integer; `C112_rounding`: the computable rounding equals Flocq's |
| C113 | `Twist_Model.v`: the functions and the core computation of notebooks/twist_shift.mo.py on two-dimensional arrays (shape and function of the indices) with numpy's slices, padding, broadcasting sum and periodic `np.interp` written out; plots and sliders are not modelled | sums over windows; continuations of an index characterised by their equations (periodic, mirrored, constant); the sorted node list of the periodic interpolation is shown to be a run of consecutive nodes; trigonometric identities for waves |
| C114 | `Cgl_Model.v`: getParPerp and getAgyro of commands/old/cglpressure.py on real arrays with a component axis (`Tools_Arr.v`) | value of every cell, algebra of tensors; uniqueness of the splitting |
| C115 | `Butter_Model.v`: _butter_lowpass, _butter_lowpass_filter, butter_filtering of tools/filters.py, with scipy's butter (prototype poles, warping, bilinear transform, coefficients) and lfilter (direct form II transposed) over exact numbers | polynomials as difference operators; every operator with its root inside the unit circle brings decay back; the difference with the predicted wave solves the homogeneous equation; induction over the samples for the state |
| C116 | `Pipe_Model.v`: GData.__init__ with the Gkeyll reader (arguments to cut strings, attributes after loading) and GData.write("gkyl"), composed with `Gkyl_Model`, `Select_Model`, `GData_Model`; `Pipe_Spec.v`: what a part of a dataset is | both ways are shown to give the block of the whole file (`part_of`), from C05-C07 and C10; a part is unique up to equality of fractions; the nodes of the rewritten file follow from the uniformity of the first grid |
| C117 | `PlotOpt_Model.v`: commands/plot.py 111-223 (limits, format, aspect, lineouts, default levels, legend) composed with `PlotCmd_Model`, the limits and figure size of animate.py, matplotlib's grouping of the positional arguments of Axes.plot and the argument counts of contour, pcolormesh and streamplot, the parameter list of output.plot; float() and f"{x}" are parameters, whether matplotlib knows a format character is not modelled | inversion of the option code against the field structure of the text (`two_fields`); the default levels follow from C92 and C95; induction over the groups of three characters |
| C118 | `Msgpack_Model.v`: `msgpack.unpackb` with its default options (all forms of the format; timestamps and the nesting limit are left out), given to the reader of `Gkyl_Model` (gkyl_reader.py 176-203) | the format as a relation `encodes` (`Msgpack_Spec.v`), mutual induction over encodings and induction over the fuel of the decoder; dictionaries specified by first appearance and last value; composed with C02 |
| C119 | `Fv_Model.v`: interpolateGrid (dg.py 517-539), set_grid (gdata.py 262-270) and the loop of load.py 134-150 over datasets already opened; the rest of load is C21, C22, C23, C77 | with one point per cell equal to the grid of interpolate (C56) as results, hence the corners; a second reading under continuity; C32 for plain grids; only the first rows of the matrix are used for several points |
| C120 | `Show_Model.v`: the models of the reader (C02, C118), of interpolation (C36, C83), of plot (C90) and of the flux in gk_nodes (C108) put together over the reals, with what interpolation reads from the metadata and `read_interp_gfile` (gk_utils.py 58-73); file type 1 only; metadata of unexpected types are simplified as said there | `Show_Spec.v` states the field from the bytes alone (cell containing a point, reference coordinates, row-major coefficients); the refined grid is shown to be the equal division of the domain and the interpolation points the centres of its parts |
| C121 | `Input_Model.v`: utils/input_parser.py whole, the common shape of the tools of one and two inputs, and the ten-moment diagnostics of tools/pressure_diagnostics.py 75-106 and 151-157 with the tuples they hand on | `stands` lists what an object stands for without naming the parser; shapes of pressure tensor and field from C38 and C40 show that what is handed on is accepted |
| C122 | `Amount_Model.v`: the readers and interpolation of C120 followed by tools/calculus.py 13-91 (C43) with the axes as typed | `Amount_Spec.v` states the integral with iterated Riemann integrals of the expansion in every cell; the midpoint rule is exact for exponents up to one, box integrals are brought to the reference cube, sums over the fine grid are split into cells and parts |
| C123 | the reader of C01-C08 applied to a prefix of a file; nothing new is modelled | `Cut_Proofs.v`: every read that succeeds on the beginning of a file gives the same on the whole file and ends inside it; `Cut_Proofs2.v`: induction over the recursion of `_get_block` (a leaf that came up short is the last one); the theorems compare offsets with the layouts of `Gkyl_Spec.v` |
| C124 | `Part_Model.v`: opening with cut strings (reader of C05-C06), interpolation (C36) and plotting (C90) chained | `Part_Proofs.v`: the part holds the coefficients of the whole at shifted indices (C05, C06) and its bounds are edges of cells of the whole; then as for C120, with the value at the centre of a small cell unique by `C120_single_valued` |
| C125 | `Slope_Model.v`: the choices of --basis_type, opening (C120), `differentiate_data` (C84, C36) and plotting (C90) chained | `Slope_Proofs.v`: tables of derivatives equal those of interpolation (by computation over all families, orders and dimensions); inside a cell a move along an axis changes one reference coordinate; `Slope_Spec.v` defines the slope as the derivative of the values of the field along an axis, unique by `C125_single_valued`; `C36_derivative`/`C36_gradient` give the values |
| C126 | `Trace_Model.v`: opening with metadata (C120), interpolating, integrating (C122), collecting over the reals (time stamps, stacking, sorting) and plotting (C90) chained for a list of files | `Trace_Proofs.v`: each stage succeeds for every file, stamps from the dictionary (C118), rows of the sorted stack; `C126_exact` by C122, `C126_curve` by C90; np.argsort is any function that orders the given stamps; `Foreign_Props.v` (also for C120, C122, C124, C125): files that are not Gkeyll files |
| C127 | `FGrid_Model.v`: the reader of `Gkyl_Model.v` with every operation followed by Flocq's binary64 rounding; numpy's linspace with its branch for a step of 0 | `FGrid_Proofs.v`: relative error of products and quotients, error of sums (Flocq), monotonicity of rounding; the refutations compute with the rounding of `FloatQ_Model.v` (C112_rounding) |
| C128 | `FSel_Model.v`: the reader with rounded arithmetic on rationals, the dataset of C116, select of C09 | `FSel_Props.v`: the grid on rationals is that of C127 (C112_rounding), so it increases strictly and C09 applies; the rounded edges are then compared with the exact ones |
| C129 | `Digits_Model.v`: the decimal exponent, the rounded digits with carry, the text; the lines of C14 | `Digits_Spec.v`: a reader of decimal text, numbers of n digits. `Digits_Proofs.v`: the digits are Flocq's rounding to n decimal digits, reading by induction over digits and numbers, spacing of the doubles. `Digits_Props.v` |
| C130 | `FInt_Model.v`: integrate with every operation rounded; np.dot and np.sum as parameters with the relations `dots`, `sums` | `FInt_Spec.v`: number of roundings, extent. `FInt_Proofs.v`: error of a tree of additions by induction over it, then one axis, then all axes with the invariant error <= (K-1) sum abs + K P tiny. `FInt_Props.v` |
| C131 | `Dg_Model.v` with the rounded operations `dnum` of `FGrid_Model.v`; np.tensordot as a parameter with the relation `dots`; SymPy's evaluation as a parameter with an accuracy (`FDg_Spec.accurate`), discharged for `FDg_Model.evaluates`: every literal and operation rounded, in any order and grouping of sums and products (collecting like terms and multiplying out are left out; one rounding per power or any splitting of it); simplification: the rounding of an inner product depends on the row and the coefficients, not on the cell | `FDg_Spec.v`: terms without signs, near points, accuracy. `FDg_Props.v`: the generic C36_interpolated_fields, error of one row from `dots_error`, points by counting roundings, grid by C127_linspace. `FDg_Proofs.v`: error of evaluating a polynomial, by induction over the evaluation with the number of roundings and the value with all signs plus, both unchanged by rearranging. `FDgTab_Props.v`: these two computed for all tables |
| C132 | `FNum_Model.v` (`number`): `modal_interpolate` with the operations `dnum`, then `fintegrate` of `FInt_Model.v`; same parameters and simplifications as C130 and C131, one-dimensional coordinate arrays | `FNum_Spec.v`: places of parts, the expansion and the allowed error there, volume and rooms. `FNum_Props.v`: a perturbed weighted sum (`total_near`, induction on the axes), C131_values, C131_interpolate and C130_error, edges by C127. `FNumInt_Spec.v`, `FNumInt_Props.v`: for order one the exact integral, by the midpoint lemmas of C122 |
| C133 | `modal_diff_values` of `Dg_Model.v` with the rounded operations `dnum`; np.tensordot and SymPy's evaluation as in C131 | `FDg_Spec.v` and Coquelicot's `is_derive`. `FSlope_Props.v`: the generic C31_value, `row_error` of C131 for the derivatives of the functions, doubling is exact, quotient by a rounded width. `FGrad_Props.v`: all axes, by induction over the loop |
| C134 | `FTool_Model.v`: `fmag_sq` (tools/mag_sq.py 12-42), `frel_change` (tools/rel_change.py 4-24) with one rounding per operation; np.sum is a parameter | `sums` of `FInt_Model.v` and the exact sum and quotient in the statement. `FTool_Props.v`: `squares_error` on top of `sums_error`, `change_error`; distinct doubles are 2^-54 apart (`apart`), so a change with respect to itself is seen; a purely relative bound, and seeing every change with a reference component, are refuted by underflow |
