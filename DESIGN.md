# Formal model of NRG Ljubljana in Rocq (Coq 8.16.1)

`properties.jsonl` lists the properties, `MANIFEST.json` maps each to its theorems, `ASSUMPTIONS.md` (generated) gives the
output of `Print Assumptions` for every one of them, `seeded/LOG.jsonl` records the mutation tests.

## Layout

Everything is in `rocq/theories/`, flat, one prefix per area:

* `<Area>_model.v` – total, computable Gallina functions, one per C++ function, each citing file and lines in `/repo`;
* `<Area>_spec.v` – the small independent vocabulary used in theorem statements;
* `<Area>_proofs.v` and further files without a suffix listed here – lemmas;
* `<Area>_aux.v` – concrete cases used by the `Example`s;
* `<Area>_props.v` – only the property theorems `Cxx_...`, `Print Assumptions`, and the `Example`s that show that the
  hypotheses are met by a concrete, non-trivial case.

Suffixes: `_partial` = only part of the property; `_refuted` = the code violates the property (a finding; the theorem exhibits
the violation); everything else is the property itself.

`Symmetry_tables.v`, `Columns_tables.v` and the other `*_tables.v` are generated from the text of `/repo` by the scripts in
`gen/` and are committed.

## Modelling conventions

* Results: `Ok`, `Throw` (exception, failed `my_assert`, `exit(1)`), `UB` (C++ undefined behaviour, out-of-range access, null
  dereference). Loops without a syntactic bound are inductive relations, or take fuel whose exhaustion is a separate outcome
  that the theorems exclude.
* `std::map`, `std::vector`, `std::set` are association lists / lists, kept in the order in which the code iterates over them.
  `std::sort` is any permutation meeting the contract of the comparison.
* Numbers: quantities that are only compared and subtracted are `Z` (each finite double is a multiple of 2^-1074); formulae
  with exp, log, sqrt, pi use the real numbers of the standard library; linear algebra is over an arbitrary mathcomp
  `numClosedFieldType`, which covers the real and the complex build. **No theorem speaks about rounding errors, overflow of
  doubles or NaN**, except where a NaN is the finding.  `int`/`size_t` wrap-around is modelled where it matters (C04, C05, C09).
* External libraries (LAPACK, MPI transport, GSL, boost conversion of numbers, file system calls) are arguments of the model;
  the assumed behaviour is written as a hypothesis of the theorem that needs it.

## Trusted base

1. Coq's kernel (`coqc`, and `coqchk` as run by `vcheck`), no kernel check switched off, no OCaml plugin, no native compute.
2. The axioms of the standard library only: `ClassicalDedekindReals.sig_forall_dec`, `ClassicalDedekindReals.sig_not_dec`,
   `FunctionalExtensionality.functional_extensionality_dep`, `Classical_Prop.classic`. They enter through `Reals` and only in
   theorems that speak about real numbers; see `ASSUMPTIONS.md` for the list per theorem. All other theorems are "Closed under
   the global context". The model itself adds none.
3. `coqchk` lists further names (`mathcomp.*.BigOp.bigop`, `Coq.ssr.ssrunder.Under_rel...`, `Rdefinitions.RbaseSymbolsImpl...`):
   these are constants of *sealed modules* of the libraries. They have bodies; `coqchk` prints every field of a module sealed by
   a signature, `Print Assumptions` does not count them.
4. The reading of the C++ source embodied in the `_model.v` files. Nothing checks this mechanically, except for the tables
   generated from the source text. The comments cite lines and name each simplification.

Libraries used: Coq standard library, mathcomp (algebra), Coquelicot (derivatives and integrals: `Zavg_weight.v`, `Zavg_total.v`, `Gauss.v`, the files `Bw_*` and `Adapt_*`).

## What is modelled

| source (`/repo`) | model | properties |
|---|---|---|
| `c++/invar.hpp`, `c++/symmetry.hpp`, all `c++/symmetry/sym-*` In2/QN tables (51 pairs) | `Invar_model`, `Symmetry_model`, `Symmetry_tables` | C01–C03, C07, C28 |
| `c++/subspaces.hpp`, `tasks` in `core.hpp`/`diag` | `Subspaces_model` | C02, C04–C06, C37 |
| `c++/truncation.hpp`, `eigen.hpp` (ranges, splitting clean-up, sorting), `do_diag` restart loop | `Truncation_model` | C08–C14 |
| `c++/mpi_diag.hpp` + OpenMP/serial loops | `Mpi_model` | C15, C16 |
| `stored files: io, eigen.hpp, store.hpp, dm files` | `Storage_model`, `Storage_io` | C17–C19, C29 |
| `c++/dmnrg.hpp`, `oprecalc`, `measurements` | `Density_model`, `Recalc_model` | C20, C22, C36, C38–C40 |
| `c++/thermo/fdm weights`, `c++/symmetry/*calculate_TD*` | `Thermo_model`, `Columns_model` | C21, C30, C41 |
| `c++/spectral algorithms (FT, DMNRG, CFS, FDM)` | `Spectral_model` | C23, C42–C44 |
| `c++/bins.hpp`, `spectrum.hpp` | `Bins_model`, `Patch_model` | C24, C25, C45, C46 |
| `c++/params.hpp`, readers of the tools | `Params_model` | C26 |
| `c++/step.hpp`, main loop | `Steps_model` | C27 |
| `c++/matrix.hpp`, `core.hpp` (Hamiltonian assembly) | `Hamilton_model` | C33 |
| `c++/tridiag.hpp`, `coef.hpp`, `tools/nrgchain`, `tools/adapt` interpolation | `Interp_model`, `Chain_model` | C31, C35, C47, C48 |
| `tools/broaden`, `tools/specmoments`, `tools/mats` | `Zavg_model` | C32, C49–C52 |
| all coefficient tables `c++/symmetry/*/*.dat` (49 sets) and the loops `recalc_f`, `recalc_general` | `Coef_model`, `Coef_tab_*`, `Coef_tables`, `Coef_ieee` | C53, C54, C57–C59 |
| the lines of `make_matrix` of every symmetry (hopping, on-site), `qst_exception`, `spsu2t_exception` | `Coef_model`, `Coef_tab_*`, `Coef_lines_spec` | C55, C56 |
| `tools/instantiate/matrix_evaluator.hpp` | `Template_model` | C34 |
| `c++/diag.hpp` (LAPACK drivers without CUDA), `c++/blas_gemm.hpp`, products in `c++/numerics_Eigen.hpp` | `Linalg_model` | C60, C61 |
| `c++/oprecalc.hpp`, order of recalculation and measurement in `core.hpp` and `measurements.hpp`, `string_token` | `Oprecalc_model` | C62, C63 |
| `c++/read-input.hpp` (all but the tridiagonalisation), `coef.hpp` (reading), `eigen.hpp:466-475`, `operators.hpp:31-42, 174-188`, `basicio.hpp:142-183`, `misc.hpp` (`skip_comments`), `numerics_Eigen.hpp` (`read_matrix`) | `Datafile_model` | C64 |
| a whole run: `core.hpp` (`nrg_loop`, `iterate`, `do_diag`, `after_diag`), `recalc.hpp` (`split_in_blocks`, `recalc_f`), `recalc_irreduc` of the symmetries, `stats.hpp` (`update`), `eigen.hpp` (ground-state energy, truncation), `params.hpp:733-735`, together with `Hamilton_model`, `Subspaces_model`, `Coef_tab_*` | `Fullchain_model`, `Fullchain_scale_model` (specification `Fullchain_terms`, `Fullchain_spec`) | C65 |
| `tools/hilb/hilb.hpp` (`hilbert_transform`, `bandwidth`, `interpolator`, `do_hilb`) | `Hilb_model` | C66 |
| `tools/kk/kk.hpp` (`init`, `f`, `calc`) | `Kk_model` | C67 |
| `tools/instantiate/instantiate.cc` (reading of the template, diagonalisation, transformation of the operators, writing and checking of the data file) | `Instantiate_model` | C68 |
| `tools/instantiate/instantiate.cc` (blocks of the parameter file, removal of temporary files; names of files without a slash; `--generate-temporaries` and the files written with it are not modelled) | `Sections_model` | C69, C70 |
| `tools/kk/kk.hpp`, `integ.cc`, `intavg.cc`, `tdavg.cc`, `c++/misc.hpp`, `tools/common/io.hpp`, `tools/common/tabulated.hpp`, `tools/adapt/load.hpp` (readers and writers of tables; the conversion of digits is an argument) | `Tables_model` | C71 |
| `tools/intavg/intavg.cc`, `tools/tdavg/tdavg.cc` (mesh, interpolation, average; rounding is not modelled) | `Averages_model` | C72 |
| `tools/integ/integ.cc` (init, integrands, main), `tools/resample/resample.hpp`; GSL spline and quadrature are arguments with contracts | `Resample_model` | C73 |
| `c++/output.hpp` (Annotated, ExpvOutput), `my_fcmp` of `c++/numerics.hpp`; lines as data, the formatting of numbers is left out | `Annotated_model` | C74 |
| `tools/diag/diag.cc`, `tools/unitary/unitary.hpp`, the readers and writers of matrices in `c++/io.hpp` and `c++/basicio.hpp`; LAPACK and the bytes of a double are arguments | `Diagtool_model` | C75 |
| `tools/bw/bw.cc`, except for reading the command line; numbers are real numbers, a binary file is its numbers and the bytes left over | `Bw_model` | C76 |
| `tools/adapt/adapt.hpp`, `tools/common/lambda.hpp`, `integrate_trapezoidal_ab` of `tools/common/calc.hpp`, except for the command line, the messages and the reading of files; numbers are real numbers | `Adapt_model` | C77 |
| `tools/matrix/matrix.ll`, `tools/matrix/parser.yy` (with the tables of the generated `parser.cc` for the conflicts), except for the reading of the chain files, the command line, the shell escape and the inclusion of files (these two end the run in the model); numbers are any type with operations | `Mtool_model` | C78 |
| `c++/time_mem.hpp` (times in ticks of the clock; the reading of `/proc` and the printing of seconds are left out) | `Time_model` | C79 |
| `c++/nrg.cc` `help`, `set_workdir`, `main` (messages left out; the result of the runtime check and the files seen are parameters for each process) | `Startup_model` | C80 |

## What is not modelled

Numerical accuracy; the internals of LAPACK, GSL, MPI and boost; command-line handling and log output; the Mathematica part that
creates the `data` file; HDF5 output; the perl/python scripts; memory
exhaustion; power loss (the code does not `fsync`).

## Plan and state per property

| id | model | proof |
|----|-------|-------|
| C01 | `combine`/`inverse` over a signature list | pointwise algebra |
| C02 | `ancestors`, `new_subspaces` over a table | from C01, for all tables |
| C03 | each symmetry as data (types, multiplicities, triangle kinds, allowed minima) + tables generated from the `.dat` files | each term is eventually affine in every quantum number; finite grid by `vm_compute`, lifted to all integers |
| C04, C37 | `new_subspaces`, `SubspaceDimensions`, `TaskList` | double counting from C02/C03; induction over steps |
| C05 | `SubspaceDimensions` accessors | induction on the list of dimensions |
| C06 | `TaskList` | sortedness/permutation |
| C07 | `su2_triangle_inequality` | `lia` |
| C08–C10 | `highest_retained`, `truncate_prepare` on `Z` criteria with `NotEnough` outcome | list induction |
| C11 | `do_diag` loop with rational ratio | well-founded measure; divergence witness |
| C12 | `Clusters`, `fix_splittings` | induction over sorted list |
| C13 | `perform_sort_by_c` | permutation |
| C14 | `Drange/Krange` | arithmetic |
| C15, C16 | small-step system: master, workers, channels; every interleaving | inductive invariant + measure |
| C17, C18 | I/O programs over a directory with an event list deciding failure, death, early write-out at every operation | case analysis over all prefixes, induction over histories |
| C19 | byte-level archive reader/writer | induction; every proper prefix rejected |
| C20, C22, C39, C40 | block matrices over a closed field | trace cyclicity + orthonormality + multiplicity count |
| C21, C30 | partition sums over `R` | algebra, Cauchy–Schwarz |
| C23, C42–C44 | index-pair loops producing a multiset of peaks | list reasoning, Lehmann formulas, sum rule by telescoping over shells |
| C24, C45 | bins over `R` | algebra |
| C25, C46 | window functions over `R` | trigonometric identity; refuted where false |
| C26 | block parser on strings | induction on lines |
| C27 | step loop | arithmetic induction |
| C28, C29 | faithful model of the constructor assertion / of the constructor order | refuted |
| C31 | stateful interpolator | invariant over query histories |
| C32, C49–C52 | ordered map merge, windowed sums, kernels | induction, real analysis |
| C33 | block insertion | index reasoning |
| C34 | recursive-descent evaluator over any interpretation of numbers and functions | equivalence with an inductive grammar; termination bound |
| C35, C47, C48 | tables, Lanczos tridiagonalisation, flat-band energies | telescoping, moment matching, calculus |
| C36, C38 | recalculation of operators | matrix algebra over tables |
| C53–C58 | coefficient expressions as data (`gen/gen_coef.py` translates the `.dat` files), evaluated in `R` | a normaliser for sums of products of square roots of linear forms in the spins, proved sound; run by `vm_compute` on each table: for large spins symbolically, for the finitely many small spins separately |
| C59 | headers of the same tables | finite comparison by `vm_compute` |
| C60 | the drivers around an arbitrary LAPACK; its documented contract is a hypothesis, shown to be satisfiable | index arithmetic of row-major/column-major storage, size bounds |
| C61 | views of memory with offset and stride; documented effect of `xgemm` | index arithmetic, sums |
| C62 | trace of measurements; matrices of any type, transformation and trimming are arbitrary functions | induction over steps; membership in the nested loops |
| C63 | file names as strings | injectivity of the name, no repetition in the list of spectra |
| C64 | the file as a string, the unread part of it as the state of the stream; the conversion of digits is an argument | compositional lemma: a parser reads the words of a value, and throws if the text ends before the last of them; separately an invariant of every parser for arbitrary text |
| C65 | the loop over steps with an arbitrary diagonaliser (contract of C60) and arbitrary truncation; the chain as an operator on the product of the cluster's basis and the local bases of all sites | the invariant `represents`: stored states are orthonormal vectors of the whole chain and all matrix elements are right. One step: matrix elements of the terms between product states (the tables are checked by computation against the terms), then rotation by the eigenvectors. The spectral theorem is proved, so that a diagonaliser exists |
| C66 | `hilbert_transform` over the reals with the integration routine as argument; the transform as a complex-valued Riemann integral | substitution `w = x ± |y| e^r` piece by piece, integral of the kernel by the fundamental theorem, bound of the part left out |
| C67 | the regularised integrand, the correction and the checks of the table; principal value as a limit | the difference quotient is continuous; the logarithms of the two halves cancel against the correction |
| C68 | template and data file as strings; real arithmetic, LAPACK by the contract of C60, the evaluator of C34 and the conversion of numbers as arguments; the reader of C64 reads the result | the chunks of a layout are consumed one after the other; what is written spells the contents in the sense of C64, whose theorem then gives the stored data; separately an invariant for arbitrary text |
| C69 | texts as in C26 | induction on lines, with the settings of all blocks of a name as an inductive relation |
| C70 | the current directory as a list of named entries; the computation is an argument that only reads | every removal keeps all other names; invariants of lists with distinct names |
| C71 | the text not yet read; the conversion of one number as an argument with a contract | texts described by inductive relations (words, lines, blocks, comments); induction over them |
| C72 | the objects with their state (C31), threaded through the loops; real numbers, option for values that are not finite | an object stands for a function whatever is evaluated; induction over mesh, columns and data sets; the mesh by induction over std::unique |
| C73 | spline and quadrature as arguments with contracts (through the points and continuous; error at most tol for finite integrands); values that are not finite as None | Riemann integrals (Coquelicot): additivity at the point nearest to zero, monotonicity, 1/(1+e^u) + 1/(1+e^-u) = 1; sorting is unique for distinct abscissae |
| C74 | sectors as lists of energies, lines as data; std::map as an association list whose subscript adds absent keys | degeneracy with the first level is downward closed along ascending non-negative energies; induction over groups; last assignment wins in the map |
| C75 | a stream as the list of numbers and failures it gives, a text line as words with the numbers in them, a file as bytes | column-major and row-major indices for the triangle LAPACK reads; sums over the rows of an orthonormal set; induction over lines and bytes |
| C76 | the options as a record, the passes of the main loop as a function with the files written, the endless loop of the mesh with fuel | the Gaussian integral (`Gauss.v`, from the derivative of its square) and a change of variables for the kernel; induction over the peaks for the weight; a relation for the passes, with an invariant of the mesh and of the widths |
| C77 | the interpolation objects with their caches and the flag that makes the solver halve its step, `timestep`, `int_with_to`, the loops over the lines (fuel, `None` = still running), the secant method | an invariant (the caches are correct) gives that the right-hand sides are functions of x and y only; then induction over the loops gives the relations `walk`, `output` and `failure` of `Adapt_spec`; convergence by Gronwall's argument (`Adapt_ode.v`) with the Lipschitz constants of a piecewise linear density (`Adapt_lip.v`); completion by counting the steps of a line (`Adapt_done.v`) and by a bound on the growth of f (`Adapt_full.v`); completed runs of a flat band in `Adapt_flat.v` |
| C78 | the scanner as a function from the text to tokens (rules in the order of the longest match), the parser as a shift/reduce machine with one token of look-ahead, the symbol table with its 200 places, the writing of rows and matrices | a relation between pieces of text and tokens that composes (`Mtool_lex`); an induction over expressions shows that their tokens are reduced to one value (`Mtool_parse`), with any look-ahead that does not bind more strongly; lines and inputs by composition; a measure of the stack gives the end of every run. Conversely (`Mtool_gram`, a grammar on tokens written independently of the machine): an input read to its end consists of statements of the grammar with their output (`C78_reads`, by an invariant of the stack), every such input is accepted (`C78_accepts`), its output is unique (`C78_one_reading`), and a run that ends early has written the output of a part of the grammar (`C78_prefix`). The scanner is compared with the rules of `matrix.ll` written as regular expressions (`Mtool_flex`): the tokens of every text are those of the longest match and, among these, of the first rule (`C78_scanner`) |
| C79 | the timer as a state machine with the lives of the scope objects as events, the ordered map of accumulators, the lines of the report | induction over the sections; the sorted map has one entry per name with the sum of its durations; the digits by induction in steps of three |
| C80 | the processes as a list of places in `main`, one step of any process at a time, the broadcast as a value handed in by process 0 | an invariant over the executions and a measure that falls with every step |
| C41 | `calculate_TD` of every symmetry, columns extracted from the source | sums over multiplet members |

## Findings (properties the code violates; each is a `_refuted` theorem or part of a stated one)

* C05 `SubspaceDimensions::total` wraps at 2^31 (unreachable for shipped tables).
* C09 a huge `safeguardmax` wraps the prefix size and the guarantee fails.
* C10 with `keep` at least the number of computed states an incomplete diagonalisation is not noticed.
* C11 `restartfactor` in [0,1] is accepted and loops for ever.
* C14 `StoredEigen::all()` exceeds the computed states after an incomplete diagonalisation.
* C26 the tools silently differ from the main program in reading parameter files.
* C28 `Invar(const InvType &)` asserts on a size that is still zero, so `InvertParity` always throws.
* C29 `init_laststored` runs while `Nmax` is still zero, so resuming never reuses a step.
* C31 a repeated abscissa makes interpolation depend on the history of calls, or gives NaN.
* C33 the QJ wrapper addresses blocks off by one.
* C34 an index that is not a number (`coefxi[sqrt(-1),1]`) is converted to `int`.
* C35 tables with NaN pass the checksum.
* C36 singlet operators of `SPSU2LR` lose sectors.
* C43 the CFS algorithm has the wrong sign for bosonic operators before the last step; `cfsls`/`cfsgt` are exchanged.
* C44 DMNRG uses the transposed density matrix, wrong for complex Hermitian ones.
* C45 the shifted grid drops zero-energy peaks.
* C46 some accepted patching settings leave gaps, double or halve the spectrum.
* C51 a mesh read from a file may contain zero, where the broadened value is not a number.
* C51 with an accumulation point (`-a`) the logarithmic kernel of a peak above the point integrates to one above the point and is not cut off below it, so the total weight exceeds that of the raw spectrum. The meshes the tool makes itself have no points there; a mesh loaded from a file may.
* C53 the labels of some operators never couple their sectors, so the operators silently vanish: doublets of `DBLSU2`, `SPSU2LR`, `SPSU2T`, `SPU1LR`; triplets of `SPSU2LR`, `QSZTZ`, `SPU1LR`.
* C55 in the non-polarised mode of `U1` the hopping lines join spin up of the last site with spin down of the new one.
* C58 the doublet tables of `P` (refuted) and `ISOLR` lack the fermionic sign: their operators commute with those of the new site.
* C57 triplet operators of `QS` with three or four channels (also `QSTZ`, `SPSU2T`, and doublets of `QST`, `SPSU2T`) have factors that are not a number at the smallest spins; for `QS` it is proved that the factor is NaN in the arithmetic of `double` where the program uses it, so `recalc_general` stops the program.
* C59 with three channels `ISO` has no doublet and triplet tables, `QSZ` and `SPSU2` lack triplet tables, although the number is accepted.
* C60 with `dsyevr` and `zheevr` the size of the array of eigenvectors is computed in `int` and overflows for matrices larger than 46340; all other size limits give an error message.
* C63 operators `a-b`, `c` and `a`, `b-c` give two spectra with the same name `a-b-c`: both are selected and the second overwrites the file of the first.
* C64 the two numbers after the letter `f` are read and dropped: with the channels in another order the file is accepted and the operators are stored in the wrong channels. A file that ends between two blocks (or in the line of a letter) is accepted without the rest of its operators.
* C65 with `NONE` and spin-dependent chains the on-site energies are counted from one electron of each spin instead of half filling (`sym-NONE-impl.hpp:79-81` uses `diag_function` where all other types use `diag_function_half`): energies of the same problem differ by half the sum of the zeta coefficients. `U1` without spin-dependent chains is outside the theorem because of the exchanged spins (C55).
* C66 for `Re z` exactly at a band edge and `|Im z| < 1e-3` the tool leaves out the integrals (`hilb.hpp:226-228` sets only the flag for the analytic part): for the semicircular density it returns 0 where the value is about 2/B.
* C67 a table that is symmetric only within 1e-8 and reaches further down than up is accepted (`kk.hpp:142, 161`), but at its lowest point `gsl_atanh` is called outside of its domain (`kk.hpp:254`), which gives NaN.
* C68 `write_matrix` (`instantiate.cc:450`) writes `abs(value) > 1e-14 ? value : 0.0`, so that a matrix element that is NaN becomes zero without a message, and the file is accepted.
* C69 `parse_param_sections` (`instantiate.cc:112`) merges blocks of the same name, lets the last of two assignments win and ignores a header without a closing bracket; `parser` of the program (which the tool also calls for the block param) takes the first block, refuses two assignments and ends the block at any bracket. The block extra is read by the tool's own parser.
* C70 `cleanup_instantiation_temporaries` (`instantiate.cc:160`) removes files by name although the run, without `--generate-temporaries`, has written none of them: `ham.*` and `vec.*`, `xi.dat`, `mat`, `param.dmft`, `solverlog` and others. Matrices of the template that are found in the current directory (`resolve_template_file`) are lost if they are called `ham.*`, and so is a parameter file called `param.dmft`.
* C71 `read` of `kk.hpp:66` (and its copies in `integ.cc:116`, `intavg.cc:90`): after a row the newline has not been read, so `F.peek() == '#'` is false at a comment line; the extraction fails at `#` and the loop ends. Everything after the first comment below the first row is lost without a message.
* C71 `next_data_line` (`io.hpp:24`) recognises a comment in the first column only; an indented comment of two words becomes the row (0, 0) in `load_pairs`.
* C71 `load` of `tdavg.cc:122` uses 0 as the mark of an unknown number of columns; a first row without values leaves it unknown, and later rows set it, so that `interpolate` reads values that the first row does not have.
* C72 `eq_approx` (`intavg.cc:211`, `tdavg.cc:291`) divides by its first argument; for zero it is false, so that the row of an abscissa zero is written once for every data set.
* C72 `interpolate` of `intavg.cc:229` does not sort the table (tdavg does): with descending abscissae every mesh point is below `xmin`, and the result is the first value everywhere, without a message.
* C73 `integ -T 0 -f`: the weight at X = 0 is 1/(1+exp(0/0)), not a number; the Gauss-Kronrod rule evaluates the centre, so that a range symmetric about zero gives NaN, although `usage` sets no condition on T.
* C74 `Annotated::dump` (`output.hpp:97-111`): the limit is extended along chains of neighbours, the lines compare with the first level of the group: two levels within `grouptol` of each other can be on different lines.
* C74 `measure_singlet` stores the values of `ops` and `opsg` in one map (`measurements.hpp:29-30`): a local and a global operator of the same name show the value of the global one in both columns of `custom`.
* C75 `diag` does not check that its matrix is symmetric (`diag.cc:158-184`): the lower triangle of the text is ignored.
* C75 `get_dims` counts words, `read_matrix` reads numbers with `>>` (`io.hpp`): a word such as `1.5.5` shifts the values of its row without a message.
* C76 `make_mesh` (`bw.cc:306-325`) does not check that the lower end is positive: `-m 0` runs until the memory is used up.
* C76 a peak at zero frequency counts as positive, but the kernel gives 0 for it (`bw.cc:339-350, 407-429`): its weight is lost.
* C76 (seen while reading) the precision set in `bw.cc:659` belongs to the terminal; the files have six digits, so points of a refined mesh may be printed equal.  The regularisation `q` is not checked to be positive.
* C77 `set_parameters` (`adapt.hpp:292-317`) tests only that `outputstep` is at most 1: with 0 the loop of `calc_f` writes the first line for ever.
* C77 `timestep` (`adapt.hpp:93-131`) compares `cnt`, which is 1 there, with `2*max_subdiv`: with `max_subdiv=0` every accurate step throws "Number of subdivisions exceeded" and inaccurate ones are accepted.
* C77 (seen while reading) the limit of a million steps per line is below what the default values may need: outputstep/dx_fine is 1563 and every step may be halved ten times.
* C77 `integrate_trapezoidal_ab` (`calc.hpp:27-50`) multiplies the part of the interval below the upper limit by the average over the whole interval: the first value of A is the weight up to 1 only if 1 is a point of the table (`C77_secant` states what is computed). The search corrects it.
* C78 `parser.yy:91-95` (in the generated `parser.cc:1322` too): if the divisor is 0 the rule's action calls `yyerror` and does not set the result, which is then the dividend: `3/(1-1)` gives 3 (`C78_division_refuted`). `instantiate` and its evaluator (C34) refuse it.
* C78 `matrix.ll:75` ignores `[name]` anywhere, not only at the beginning of a line: `Sqrt[U]` is the variable `Sqrt`, which is 0 (`C78_heading_refuted`); `Sqrt(U)` works.
* C78 the number pattern of `matrix.ll` takes an exponent only after one digit or a decimal point: `10e-3` writes 10 and ends at a syntax error, and `main` (`parser.yy:368`) ignores the result of `yyparse`, so the exit status is 0 (`C78_exponent_refuted`).
* C78 the rest of such a line is read: `Sqrt[U]+1` gives 1 (`C78_heading_sum_refuted`); a comment sign is recognised only at the beginning of a line, `{1} #` writes the row and ends at a syntax error, with exit status 0 (`C78_comment_refuted`).
* C78 `{{}}` writes the prefix without a newline (`C78_empty_refuted`).
* C78 (part of the definitions of the theorems) a name that has not been assigned is 0, also `Pi`, which the evaluator of `instantiate` knows; a call of a name that is not a function is 0; `x=y` with a letter after `=` is ignored as a textual parameter (`matrix.ll:77`), `x= y` assigns.
* C80 the result of the runtime check is not shared between the processes: if it fails on process 0 only, the others wait for ever for its broadcast.
  An empty `NRG_WORKDIR` counts as set, so that the working directory is then created in the root directory.

Seen while reading, not stated as theorems: `T = nan` passes `validate`; the `l` mode of `nrgchain` does not check table lengths; `nrgchain` reads
the misspelt key `nrgchains_tridiag`; `integrate_trapezoidal_ab` ignores its lower limit; bosonic `FDMmats` divides by the energy
difference without a test for zero at n = 0; `merge_meshes` never removes a duplicate zero; a
requested spectrum that matches no operator is ignored without a message; `fdmexpvn` outside the range of steps means that the values are never
measured, without a message; `instantiate` does not check that the Hamiltonian is symmetric (LAPACK reads one triangle), copies comments between two `f`
blocks into the data file although the reader refuses them there, and accepts `v` blocks, which the reader does not know; a singlet and a global operator with the same name overwrite each other's expectation value.

## Mutation tests

`seeded/run.py` copies the model outside `/verif`, applies one edit to one definition, rebuilds and records the first failing
lemma of every file and the property theorems that depend on it. Survivors led to tighter theorems (`tightened` field).

"Caught" means that a proof no longer goes through. This does not by itself show that the edited program violates the claim: a proof
script can also fail on a lemma that is still true. The edits of C78, C79 and C80 were therefore also run on concrete cases
(`seeded/counter26.py`, `counter27.py`, `counter28.py`). The field `falsified`, where present, lists the theorems with a counterexample.

* C79, C80: every edit falsifies a theorem. Two edits of C80 had been credited to the wrong theorem, and one led to a stronger model.
* C78: 72 of the 79 edits did so at first. AK22, AK35, AK71 and AK79 had been caught by scripts only, although the program was wrong:
  no theorem said how the tool ends. C78_names, C78_exit and C78_safe were added for them.
  No counterexample is known for AK64, AK77 and AK78.

Earlier entries have no such field: for them only the failing proof was recorded, and some of those failures may come from the script
alone, so that their theorems may be weaker than the log suggests.
