{"id": "C01", "title": "Quantum numbers form an abelian group under combine/inverse", "statement": "For every symmetry signature (any mix of additive, multiplicative and mod-3 quantum numbers) combining admissible quantum-number sets is commutative and associative, inverse() undoes combine(), results stay admissible, and combining two admissible sets never trips the sanity assertions inside combine().", "quantifier": "all signatures of any length, all admissible integer values", "why_tests_cant": "The values are unbounded integers and the signature is a run-time table; tests sample a handful of sectors.", "anchors": ["c++/invar.hpp:Invar::combine", "c++/invar.hpp:Invar::inverse"]}
{"id": "C02", "title": "Parent and child sectors are dual", "statement": "Sector J is generated from sector I by adding local state i exactly when I is the i-th ancestor of J: the sectors proposed for the next NRG step and the ancestor list used to build each new block describe the same relation, for every symmetry table in the code base.", "quantifier": "all sectors, all local states of all shipped symmetry tables", "why_tests_cant": "Relates two independently coded enumerations for unbounded quantum numbers.", "anchors": ["c++/symmetry.hpp:Symmetry::new_subspaces", "c++/symmetry.hpp:Symmetry::ancestors", "c++/symmetry.hpp:Symmetry::ancestor"]}
{"id": "C03", "title": "Adding one site multiplies the number of states by exactly the local dimension", "statement": "For each supported symmetry type and channel count, and every allowed multiplet I with degeneracy mult(I), the multiplets J produced from I by the shipped local-state tables, restricted by the triangle rule and the allowed-sector rule, satisfy sum mult(J) = (number of local states) * mult(I). No state is lost or double counted at small spin/isospin.", "quantifier": "every allowed sector (unbounded charges, spins, isospins), each of the 51 shipped table pairs", "why_tests_cant": "Boundary sectors (small S, T, isospin) are where a wrong table entry or triangle rule would drop states; the sector range is infinite.", "anchors": ["c++/symmetry/coefnew/*/*-In2.dat", "c++/symmetry/coefnew/*/*-QN.dat", "c++/symmetry/sym-*-impl.hpp:triangle_inequality", "c++/symmetry/sym-*-impl.hpp:mult", "c++/symmetry/sym-*-impl.hpp:Invar_allowed", "c++/params.hpp:set_channels_and_combs"]}
{"id": "C04", "title": "Hilbert-space size of a whole NRG step", "statement": "The blocks set up for a step contain, counted with degeneracy, exactly (number of local states) times the states kept in the previous step; every sector with a non-empty contribution is scheduled for diagonalisation.", "quantifier": "all maps from sectors to kept-state counts, all shipped tables", "why_tests_cant": "Depends on arbitrary kept-state distributions over unbounded sectors.", "anchors": ["c++/core.hpp:new_subspaces", "c++/core.hpp:SubspaceDimensions", "c++/subspaces.hpp:TaskList"]}
{"id": "C05", "title": "Ancestor blocks tile the new basis", "statement": "Inside every new sector the basis index ranges assigned to the ancestor sectors are disjoint, in order, cover 0..dim-1 exactly, and agree between the iterator-style and (offset,size)-style accessors; out-of-range block numbers are rejected.", "quantifier": "all numbers of local states and all ancestor dimensions", "why_tests_cant": "Off-by-one layout errors depend on arbitrary dimension vectors, including zeros.", "anchors": ["c++/subspaces.hpp:SubspaceDimensions"]}
{"id": "C06", "title": "Diagonalisation task list is complete and largest-first", "statement": "The task list contains every non-empty sector exactly once and nothing else, ordered by decreasing dimension with a deterministic tie break, independently of the order in which sectors were generated.", "quantifier": "all sector-to-dimension maps", "why_tests_cant": "Quantifies over all finite maps.", "anchors": ["c++/subspaces.hpp:TaskList", "c++/subspaces.hpp:tasks_descending_by_subspace_dimension"]}
{"id": "C07", "title": "SU(2) triangle rule is the angular-momentum coupling rule", "statement": "su2_triangle_inequality on multiplicities 2S+1 accepts exactly the triples with |S2-S3| <= S1 <= S2+S3, is symmetric under every permutation of its arguments and rejects non-positive multiplicities.", "quantifier": "all integer triples", "why_tests_cant": "Unbounded integers.", "anchors": ["c++/symmetry.hpp:su2_triangle_inequality"]}
{"id": "C08", "title": "Truncation keeps the lowest states of the whole spectrum", "statement": "After truncation, within every sector the kept states are a prefix of the sorted spectrum, and no discarded state anywhere has a truncation criterion below (or equal to) that of any kept state.", "quantifier": "all spectra (any number of sectors, any energies, any degeneracies), all truncation settings", "why_tests_cant": "Degeneracies and sector distributions are unbounded; tests use a few spectra.", "anchors": ["c++/truncation.hpp:truncate_prepare", "c++/truncation.hpp:highest_retained"]}
{"id": "C09", "title": "Truncation size limits and safeguard", "statement": "At least one state is kept; at least the requested number is kept (or all states when there are fewer); the energy-cutoff rule is clamped between the minimum and maximum requested counts; and truncation never cuts through a cluster closer than the safeguard gap unless the safeguard budget is used up.", "quantifier": "all spectra and all parameter values", "why_tests_cant": "Interaction of five parameters with arbitrary spectra.", "anchors": ["c++/truncation.hpp:highest_retained", "c++/params.hpp:keep", "c++/params.hpp:keepmin", "c++/params.hpp:keepenergy", "c++/params.hpp:safeguard", "c++/params.hpp:safeguardmax"]}
{"id": "C10", "title": "Partial diagonalisation never silently discards a state that should be kept", "statement": "If only the lowest part of some sectors is computed and truncation does not report NotEnough, then every state that was not computed has criterion at least as large as the cutoff, so computing the full spectrum would not place it strictly below the cutoff.", "quantifier": "all spectra, all per-sector numbers of computed states", "why_tests_cant": "Needs all combinations of partially computed sectors.", "anchors": ["c++/truncation.hpp:truncate_prepare", "c++/core.hpp:do_diag"]}
{"id": "C11", "title": "Restarted diagonalisation terminates", "statement": "With a restart factor greater than one the retry loop reaches full diagonalisation and ends after finitely many attempts whatever the spectra; with restart disabled it makes exactly one attempt; with restart factor at most one it can loop forever.", "quantifier": "all spectra, ratios and restart factors", "why_tests_cant": "A liveness property of a retry loop over unbounded histories.", "anchors": ["c++/core.hpp:do_diag", "c++/core.hpp:initial_diagratio_for_step"]}
{"id": "C12", "title": "Degenerate-level cleanup changes each energy by less than the tolerance and preserves order", "statement": "Splitting clean-up maps every energy to the lowest member of its cluster: shifts are non-positive and smaller than epsilon, the order of levels is preserved, the ground-state energy is unchanged, and clusters of exactly one value are untouched.", "quantifier": "all finite spectra over all sectors, all positive tolerances", "why_tests_cant": "Cluster chains depend on arbitrary level spacings.", "anchors": ["c++/splitting.hpp:Clusters", "c++/splitting.hpp:fix_splittings"]}
{"id": "C13", "title": "Sorting by truncation criterion keeps eigenvalue/eigenvector pairs together", "statement": "Reordering eigenpairs by the truncation criterion yields an ascending criterion, is a permutation, and moves each energy together with its own eigenvector and criterion.", "quantifier": "all spectra with arbitrary criteria", "why_tests_cant": "All permutations.", "anchors": ["c++/eigen.hpp:perform_sort_by_c"]}
{"id": "C14", "title": "Kept and discarded ranges partition the stored states", "statement": "For every stored step the kept and discarded index ranges used by the density-matrix and spectral-function code are disjoint and together enumerate every stored state once; in the last step all states count as discarded.", "quantifier": "all steps, all kept/stored counts", "why_tests_cant": "Unbounded sizes.", "anchors": ["c++/eigen.hpp:Drange", "c++/eigen.hpp:Krange", "c++/store.hpp:Substore"]}
{"id": "C15", "title": "MPI master scheduler: each task is diagonalised exactly once under every message ordering", "statement": "For any number of ranks, any task list and any order in which workers finish and messages become visible, the master terminates with every task solved exactly once, stored under its own sector, never has two outstanding tasks on one worker, and never trips its assertions.", "quantifier": "all numbers of ranks, all task lists, all interleavings", "why_tests_cant": "Schedules cannot be enumerated by tests.", "anchors": ["c++/diag_mpi.hpp:diagonalisations_MPI"]}
{"id": "C16", "title": "Parallel diagonalisation gives the serial result", "statement": "The set of (sector, eigen-decomposition) pairs produced by the MPI scheduler and by the OpenMP loop equals that of the serial loop, for every interleaving.", "quantifier": "all task lists and schedules", "why_tests_cant": "Schedules cannot be enumerated.", "anchors": ["c++/diag_mpi.hpp", "c++/diag_openmp.hpp", "c++/diag_serial.hpp"]}
{"id": "C17", "title": "Saving a step is crash-atomic", "statement": "If the process dies at any point while a unitary/density-matrix file is being written, the file under its final name is either the complete previous version or the complete new version, never a partial one; a failed save leaves the old version and no temporary file.", "quantifier": "all crash points and I/O failures, all previous directory contents", "why_tests_cant": "Crash points cannot be enumerated in unit tests.", "anchors": ["c++/eigen.hpp:DiagInfo::save", "c++/operators.hpp:DensMatElements::save"]}
{"id": "C18", "title": "A failed load leaves the in-memory state untouched", "statement": "Loading either replaces the in-memory object with exactly the file contents (and removes the file if asked) or throws leaving the object as it was before; the file is removed only after it was read completely.", "quantifier": "all file contents and failure points", "why_tests_cant": "All malformed inputs.", "anchors": ["c++/eigen.hpp:DiagInfo::load", "c++/operators.hpp:DensMatElements::load"]}
{"id": "C19", "title": "Stored data round trip", "statement": "Writing a matrix or an eigenvalue record and reading it back gives the same dimensions and the same elements in the same places, for every size including empty.", "quantifier": "all matrices / records", "why_tests_cant": "All sizes.", "anchors": ["c++/numerics_Eigen.hpp:save", "c++/numerics_Eigen.hpp:load", "c++/eigen.hpp:Values::save", "c++/eigen.hpp:Values::load"]}
{"id": "C20", "title": "Reduced density matrices are normalised at every step", "statement": "Starting from the thermal state of the last step and propagating back along the chain, the matrix saved for every step has unit multiplicity-weighted trace, is Hermitian and positive, and has the size of the kept space, for every symmetry, provided each step's eigenvectors are orthonormal; the built-in trace checks never fire.", "quantifier": "all chains, all block structures, all orthonormal eigenvector sets", "why_tests_cant": "Continuous matrices, all block sizes.", "anchors": ["c++/dmnrg.hpp:cdmI", "c++/dmnrg.hpp:calc_densitymatrix_iterN", "c++/dmnrg.hpp:check_trace_rho"]}
{"id": "C21", "title": "FDM shell weights are a probability distribution", "statement": "The shell weights wn computed for the full density matrix are non-negative and sum to one for every temperature and spectrum, and the state weights within shells sum to the shell weight.", "quantifier": "all spectra, temperatures, chain lengths, local dimensions", "why_tests_cant": "Continuous inputs.", "anchors": ["c++/measurements.hpp:calc_ZnD", "c++/stats.hpp"]}
{"id": "C22", "title": "FDM density matrix trace", "statement": "The full density matrix saved for a step is Hermitian and positive and its multiplicity-weighted trace equals the total weight of all later shells (for the last step, its own weight); the built-in trace checks never fire.", "quantifier": "all chains", "why_tests_cant": "Continuous inputs, all chain lengths.", "anchors": ["c++/dmnrg.hpp:calc_fulldensitymatrix_iterN", "c++/dmnrg.hpp:calc_fulldensitymatrix"]}
{"id": "C23", "title": "Complete-basis spectral functions count every transition exactly once", "statement": "Over a shell, the FDM algorithms visit every pair (bra,ket) of states except kept-kept exactly once in the lesser and once in the greater part, with the Lehmann energy and weight, so that no excitation is double counted between shells; the combined FDM algorithm accumulates exactly the lesser plus the greater algorithm.", "quantifier": "all shells and kept/discarded splits", "why_tests_cant": "Index-set identity for all sizes.", "anchors": ["c++/algo_FDM.hpp", "c++/algo_CFS.hpp"]}
{"id": "C24", "title": "Binning conserves spectral weight", "statement": "On the standard logarithmic grid, adding a delta peak to the binned spectrum deposits exactly its weight (split between two neighbouring bins), whatever its energy; on the shifted grid (accumulation > 0) it does so for every energy on the grid. Merging spectra adds weights bin by bin, and trimming loses a bounded amount.", "quantifier": "all energies, weights and histories of additions", "why_tests_cant": "Continuous inputs, unbounded histories.", "anchors": ["c++/bins.hpp:Bins::add", "c++/bins.hpp:Bins::merge"]}
{"id": "C25", "title": "Patching consecutive NRG shells is a partition of unity", "statement": "For all patching modes whose windows fit the energy scales (N/N+1, N/N+2, averaged N/N+2; one channel, or two channels with substeps for N/N+2), the window functions used to patch spectra from consecutive shells sum to one at every energy covered by the chain, so no spectral weight is lost or double counted, and they never sum to more than one.", "quantifier": "all energies, all Lambda, all shells", "why_tests_cant": "Continuous energies; depends on channel number and patching mode.", "anchors": ["c++/spectrum.hpp:windowfunction", "c++/spectrum.hpp:mergeNN2half", "c++/params.hpp:getEfactor"]}
{"id": "C26", "title": "Parameter file semantics", "statement": "For every parameter file, a keyword gets the value of its last (resp. unique) assignment in its block, comments and blank lines do not matter, unknown keywords are reported, and keywords absent from the file keep their defaults.", "quantifier": "all files", "why_tests_cant": "All texts.", "anchors": ["c++/misc.hpp:parse_block", "c++/params.hpp:Params", "tools/common/parser.hpp:parse_key_value_block"]}
{"id": "C27", "title": "NRG loop visits each Wilson site once in order", "statement": "The iteration visits exactly the steps Ninit..Nmax-1 in increasing order (after the optional initial calculation), the last one flagged last; with substeps every pair of site and channel is visited once; an empty chain is rejected.", "quantifier": "all Ninit, Nmax", "why_tests_cant": "Unbounded.", "anchors": ["c++/step.hpp:Step", "c++/core.hpp:nrg_loop"]}
{"id": "C28", "title": "Parity-odd singlet operators can be recalculated", "statement": "Recalculating a parity-odd singlet operator works for every symmetry with a parity quantum number.", "quantifier": "all sectors", "why_tests_cant": "Only exercised by parity-odd operators.", "anchors": ["c++/symmetry.hpp:recalc_singlet", "c++/invar.hpp:InvertParity"]}
{"id": "C29", "title": "Interrupted calculations resume from the last stored step", "statement": "When resume is requested and unitary files of steps Ninit..k exist, the run reuses them instead of recomputing.", "quantifier": "all sets of stored files", "why_tests_cant": "Depends on on-disk history.", "anchors": ["c++/params.hpp:init_laststored", "c++/core.hpp:load_or_compute_diag"]}
{"id": "C30", "title": "Thermodynamic averages", "statement": "The computed free energy, energy, entropy and heat capacity satisfy S = (E-F)/T and C >= 0 for every spectrum, and shifting all energies by a constant leaves C and S unchanged.", "quantifier": "all spectra with multiplicities", "why_tests_cant": "Continuous inputs.", "anchors": ["c++/measurements.hpp:calculate_TD"]}
{"id": "C31", "title": "Interpolation tables are history independent", "statement": "Evaluating a tabulated function gives the linear interpolant of the data at the requested point regardless of the sequence of earlier evaluations on the same object.", "quantifier": "all strictly increasing tables, all query histories", "why_tests_cant": "The cached interval is mutable state; histories are unbounded.", "anchors": ["tools/common/linint.hpp:LinIntBase", "tools/intavg/intavg.cc:LinInt", "tools/tdavg/tdavg.cc:LinInt"]}
{"id": "C32", "title": "z-averaging conserves weight", "statement": "Merging Nz raw spectra produces strictly increasing distinct frequencies, each with the average of its weights, so the total weight equals the mean of the total weights.", "quantifier": "all inputs, all Nz", "why_tests_cant": "All multisets of frequencies.", "anchors": ["tools/binavg/binavg.hpp:merge", "tools/broaden/broaden.hpp:merge", "tools/mats/mats.cc:merge", "tools/specmoments/specmoments.cc:merge"]}
{"id": "C33", "title": "Hamiltonian blocks are assembled at the right place", "statement": "Every off-diagonal term f_ch is inserted exactly once, into the block addressed by its ancestor pair (upper triangle only), with complex conjugation when the pair is swapped, leaving all other matrix elements unchanged.", "quantifier": "all block structures", "why_tests_cant": "All dimensions.", "anchors": ["c++/matrix.hpp:offdiag_function_impl", "c++/matrix.hpp:diag_function_impl"]}
{"id": "C34", "title": "Matrix templates are evaluated by their grammar", "statement": "A matrix template is accepted only if it is a text of the template grammar (numbers, names, function calls, + - * / with the usual precedence and left associativity, signs, parentheses, comments, braces). Its value is the matrix that the grammar gives it, in particular an expression printed with the fewest parentheses evaluates to the value of that expression. Rows of unequal length, division by zero, unknown names, indices out of range and shell escapes are rejected, and no template has undefined behaviour.", "quantifier": "all texts, all expressions, all parameter values and chain coefficients", "why_tests_cant": "There are infinitely many texts; precedence, comments, nesting and lexical boundaries interact.", "anchors": ["tools/instantiate/matrix_evaluator.hpp:MatrixEvaluator"]}
{"id": "C35", "title": "Star-to-chain coefficients are normalised", "statement": "The hybridisation weights computed for the discretised band sum to exactly the total hybridisation, so the normalisation check cannot fail for any band, twist z or table length.", "quantifier": "all bands, all mMAX", "why_tests_cant": "Telescoping over unbounded tables.", "anchors": ["tools/nrgchain/nrgchain.cc:tables"]}
{"id": "C36", "title": "Even singlet operators are carried to the next step", "statement": "For every symmetry type, recalculating a (parity-even) singlet operator produces, for each sector of the new step, the sum over the local states i of U_i^dagger * O_(i-th ancestor) * U_i, without tripping any assertion and without dropping any sector.", "quantifier": "all shipped symmetry tables, all sectors, all operator blocks and eigenvector blocks", "why_tests_cant": "Quantifies over all sectors and all shipped tables; a wrong singlet label silently yields an empty operator.", "anchors": ["c++/symmetry.hpp:recalc_singlet", "c++/recalc.hpp:recalc_general", "c++/symmetry/sym-SPSU2LR-impl.hpp"]}
{"id": "C37", "title": "An untruncated chain has local_dimension^N states", "statement": "Starting from any set of multiplets, after N steps without truncation the total number of physical states (multiplets times degeneracies) is the initial number times the N-th power of the local dimension, for every symmetry type.", "quantifier": "all N, all initial sector contents, all shipped tables", "why_tests_cant": "Induction over chain length.", "anchors": ["c++/core.hpp:new_subspaces", "c++/core.hpp:SubspaceStructure", "c++/symmetry.hpp:mult"]}
{"id": "C38", "title": "General operators are carried to the next step by the coefficient tables", "statement": "Between two sectors allowed by the operator's quantum numbers, the recalculated block is the sum over the table entries of coefficient * U1^dagger * old block * Up, taken over exactly the entries whose ancestor sectors are allowed, non-empty and carry an old block; forbidden pairs get no block; and a table entry naming a sector that is not the ancestor through the given local state never goes unnoticed.", "quantifier": "all shipped symmetries, all tables, all spectra and operators", "why_tests_cant": "Tests use one symmetry and one model; tables have hundreds of entries each.", "anchors": ["c++/recalc.hpp: recalc_general", "c++/symmetry.hpp: ancestor, triangle_inequality"]}
{"id": "C39", "title": "Expectation values do not depend on the step at which they are evaluated", "statement": "For every scalar operator, its expectation value with the reduced density matrix of a step equals the expectation value of the operator transformed to the next step's eigenbasis with the next step's density matrix; with the full density matrix the difference is exactly the thermal average over the states discarded in between.", "quantifier": "all scalar operators, all chains, all symmetries", "why_tests_cant": "Continuous matrices, all block structures and chain lengths.", "anchors": ["c++/dmnrg.hpp:calc_densitymatrix", "c++/dmnrg.hpp:calc_fulldensitymatrix", "c++/recalc.hpp:recalc_singlet"]}
{"id": "C40", "title": "Expectation values of scalar operators are thermal averages", "statement": "The value reported for a scalar operator at a step is its thermal average over the states of that step: it is linear in the operator, equals one for the identity, and lies between the smallest and the largest diagonal matrix element.", "quantifier": "all spectra, multiplicities, temperatures and operators", "why_tests_cant": "Continuous inputs.", "anchors": ["c++/measurements.hpp:measure_singlet", "c++/numerics.hpp:trace_exp", "c++/numerics.hpp:sum_of_exp"]}
{"id": "C41", "title": "Every column of the thermodynamics file is what its heading says", "statement": "For every symmetry type, each row written to the file td fills every column announced in the header, independent of earlier rows and without error, and each column (<Sz>, <Sz^2>, <Q>, <Q^2>, <Tz^2>, <Jz^2>, <sQ^2>, ..., <E>, C, F, S) holds the thermal average of the named operator over all physical states, i.e. over all members of all multiplets.", "quantifier": "all 31 symmetry types, all spectra, all temperatures, all preceding rows", "why_tests_cant": "Continuous inputs and all multiplet sizes; reference files exist for few symmetry types.", "anchors": ["c++/measurements.hpp:calculate_TD", "c++/outfield.hpp:Allfields", "c++/stats.hpp:Stats", "c++/symmetry.hpp:calculate_Z", "c++/symmetry/sym-*-impl.hpp:calculate_TD"]}
{"id": "C42", "title": "Sum rule of full-density-matrix spectra", "statement": "For scalar operators A and B, the weights of all delta peaks that the FDM algorithm produces over all shells add up to the expectation value <A^dagger B> (greater part) and -s <B A^dagger> (lesser part, s the statistics sign) with the full density matrix at the first step: no spectral weight is lost or counted twice by truncation.", "quantifier": "all symmetry types, all chains of steps with orthonormal eigenvectors and any truncation, all shell weights and energies, all scalar operators", "why_tests_cant": "Involves the whole history of truncations; a test sees one model and one truncation.", "anchors": ["c++/algo_FDM.hpp:Algo_FDMgt", "c++/algo_FDM.hpp:Algo_FDMls", "c++/dmnrg.hpp:calc_fulldensitymatrix", "c++/algo.hpp:BaseSpectrum::calc"]}
{"id": "C43", "title": "CFS spectra are the Lehmann representation", "statement": "Before the last step the CFS algorithm produces exactly the Lehmann peaks of the transitions between kept and discarded states, weighted with the density matrix of the kept states, for fermionic and for bosonic operators; at the last step those of all pairs of states with thermal weights. Selected separately, the greater and the lesser algorithm produce the greater and the lesser part.", "quantifier": "all sectors, operators, density matrices, statistics", "why_tests_cant": "The signs and index orders must be right for all matrix elements; regression references record whatever the code produces.", "anchors": ["c++/algo_CFS.hpp:Algo_CFSls", "c++/algo_CFS.hpp:Algo_CFSgt", "c++/algo_CFS.hpp:Algo_CFS"]}
{"id": "C44", "title": "FT and DMNRG spectra are the Lehmann representation", "statement": "The FT and DMNRG algorithms produce, for every pair of kept states whose energy difference passes the energy window, one peak carrying the sum of the greater and the lesser Lehmann weight, with thermal weights (FT) or the reduced density matrices of the two sectors (DMNRG), for real and complex matrix elements.", "quantifier": "all sectors, operators, Hermitian density matrices, statistics", "why_tests_cant": "Complex Hermitian density matrices are not exercised by the test suite's real-valued models.", "anchors": ["c++/algo_FT.hpp:Algo_FT", "c++/algo_DMNRG.hpp:Algo_DMNRG", "c++/blas_gemm.hpp"]}
{"id": "C45", "title": "Zero-energy peaks survive binning", "statement": "A delta peak at zero energy (e.g. from degenerate states in a bosonic correlator) is kept in the binned spectrum on every grid. (Refuted for the shifted grid, where it is always dropped.)", "quantifier": "all grids, all weights", "why_tests_cant": "Depends on the relation of the lowest bin to the smallest representable number.", "anchors": ["c++/bins.hpp:loggrid_acc", "c++/bins.hpp:add_acc"]}
{"id": "C46", "title": "Every accepted patching setting conserves weight", "statement": "For every accepted combination of channels, substeps, absolute energies and patching mode, and with the default calculation before the loop, the windows sum to one at covered energies. (Refuted: several channels without substeps leave gaps, the initial calculation doubles the weight at high energies in FT spectra, N/N+1 with averaging halves it, absolute energies add the same window many times.)", "quantifier": "all parameter combinations", "why_tests_cant": "Combination of settings and continuous energies.", "anchors": ["c++/params.hpp:getEfactor", "c++/step.hpp:N_for_merging", "c++/core.hpp:docalc0", "c++/spectrum.hpp:mergeNN2half"]}
{"id": "C47", "title": "The Wilson chain is the discretised band in another basis", "statement": "Tridiagonalisation returns hoppings and on-site energies of a chain that is the star Hamiltonian written in an orthonormal basis starting with the orbital the impurity couples to: all hoppings are positive and the chain of Nmax+1 sites reproduces the moments 0..2Nmax+1 of the hybridisation. It aborts only if nothing couples to the impurity or the chain ends by itself, and giving the band in other units (bandrescale) does not change the stored coefficients.", "quantifier": "all numbers of intervals, all star coefficients and energies, all chain lengths", "why_tests_cant": "Arbitrary length and coefficients; the exactness is an inductive invariant of the recursion.", "anchors": ["tools/nrgchain/nrgchain.cc:tridiag", "c++/tridiag.hpp:Tridiag"]}
{"id": "C48", "title": "Flat-band star energies lie inside their discretisation intervals", "statement": "For a flat band, every representative energy of the star lies strictly inside the interval it represents, for every twist parameter z and every discretisation parameter, and as a function of the continuous interval index it solves the discretisation equation that makes z-averaged spectra exact.", "quantifier": "all Lambda > 1, all z > 0, all intervals", "why_tests_cant": "Continuous parameters.", "anchors": ["tools/nrgchain/nrgchain.cc:Eps_flat", "tools/nrgchain/nrgchain.cc:tables"]}
{"id": "C49", "title": "Spectral moments are those of the selected window", "statement": "The moment tool reports, for k = 0..4, the sum of weight times frequency^k over the peaks inside the selected window; central moments are taken about the mean, the second equals <w^2>-<w>^2 and is not negative for non-negative weights, and shifting all frequencies changes only the first moment; zero total weight is an error.", "quantifier": "all spectra, windows and shifts", "why_tests_cant": "Sums over arbitrary spectra.", "anchors": ["tools/specmoments/specmoments.cc:filter", "tools/specmoments/specmoments.cc:moments", "tools/specmoments/specmoments.cc:central_moments"]}
{"id": "C50", "title": "Sum-rule integrals and cumulative spectrum are consistent", "statement": "Fermi-weighted integral plus its mirror equals the total weight; the Bose-weighted pair equals the total weight minus the weight at zero frequency; positive, negative and zero-frequency weights add up; the cumulative spectrum at each point of an ordered mesh is the weight strictly below it and never decreases for non-negative weights.", "quantifier": "all spectra, temperatures and ordered meshes", "why_tests_cant": "Identities over arbitrary spectra.", "anchors": ["tools/broaden/broaden.hpp:integrals_for_sumrules", "tools/broaden/broaden.hpp:calc_cumulative", "tools/broaden/broaden.hpp:filter"]}
{"id": "C51", "title": "Broadening is a well-defined non-negative smoothing", "statement": "On every mesh made by the tool the broadened spectrum is a finite number: the sum of weights times a non-negative kernel; the kernels are symmetric in both energies and distribute each peak with the measure of a Gaussian; the mesh is ordered, without zero, symmetric when requested; with the normalised cross-over and no accumulation point the integral of the broadened spectrum over all non-zero frequencies is the total weight of the raw spectrum.", "quantifier": "all spectra, all broadening parameters, all meshes", "why_tests_cant": "Real analysis over all parameters.", "anchors": ["tools/broaden/broaden.hpp:bfnc", "tools/broaden/broaden.hpp:BR_L_acc", "tools/broaden/broaden.hpp:make_mesh"]}
{"id": "C52", "title": "Matsubara Green's function from a raw spectrum", "statement": "The value reported for the n-th Matsubara frequency is the sum of w/(i w_n - f) over the averaged spectrum with w_n = (2n+1) pi T, finite for every spectrum, with non-positive imaginary part for non-negative weights.", "quantifier": "all spectra, all T > 0, all n", "why_tests_cant": "All spectra and frequencies.", "anchors": ["tools/mats/mats.cc:omegan", "tools/mats/mats.cc:compute"]}
{"id": "C53", "title": "Coefficient tables connect families built from the same states of the smaller system", "statement": "In every table of coefficients with which operators are carried from one chain length to the next, a row for the operators of the new site pairs two families of basis states that consist of the same states of the shorter chain, a row for any other operator names exactly the sectors of the shorter chain from which its two families are built, no pair of families occurs twice, and the label of the operator couples the sectors of each of its tables, so that the block is computed.", "quantifier": "all shipped symmetries and numbers of channels, all tables, all rows, all sectors (all quantum numbers)", "why_tests_cant": "Some ten thousand generated rows, each for infinitely many quantum numbers; a wrong sector is silently taken as an absent block.", "anchors": ["c++/symmetry/*/*-spin*.dat", "c++/symmetry/*/*-doublet*.dat", "c++/symmetry/*/*-triplet*.dat", "c++/recalc.hpp:recalc_f", "c++/recalc.hpp:recalc_general"]}
{"id": "C54", "title": "The coefficients of the new site satisfy the canonical anticommutation relations", "statement": "With the coefficients that the program uses for the creation operators of the new site, f_a f_b^+ + f_b^+ f_a summed over spin and isospin components is the number of components when a = b and zero otherwise, between any two families of any sector; every coefficient that enters is a defined number.", "quantifier": "all shipped symmetries but QJ, QSC3 and SPSU2C3, all channels, all sectors, all pairs of families", "why_tests_cant": "Infinitely many quantum numbers; thousands of closed-form coefficients generated by a computer-algebra system.", "anchors": ["c++/symmetry/*/*-spin*.dat", "c++/recalc.hpp:recalc_f", "c++/symmetry/sym-*-impl.hpp:recalc_irreduc"]}
{"id": "C55", "title": "The hopping lines build the hopping term", "statement": "In every sector the lines with which the Hamiltonian of the longer chain is assembled give, for each hopping coefficient and each operator of the last site, exactly the matrix elements of (last-site electron operator) x (adjoint of the new site's operator of the same channel and spin); every factor is a defined number and no other lines exist except those of anomalous hopping.", "quantifier": "all shipped symmetries with tables of electron operators except QJ, QSC3, SPSU2C3, SPU1LR; all numbers of channels, polarised, 2x2 and rung modes; all sectors; all pairs of families", "why_tests_cant": "Infinitely many quantum numbers, thousands of generated factors; a wrong factor changes the model that is solved, not its stability.", "anchors": ["c++/symmetry/sym-*-impl.hpp:make_matrix", "c++/matrix.hpp:offdiag_function"]}
{"id": "C56", "title": "The on-site lines count electrons", "statement": "The numbers with which the on-site energies of the new site enter the Hamiltonian are the matrix elements of the number of electrons of that channel (and spin), in every sector, and this operator is diagonal in the families.", "quantifier": "all shipped symmetries without isospin except QJ, QSC3, SPSU2C3; all channels, spins, sectors and families", "why_tests_cant": "Infinitely many quantum numbers and thousands of table rows.", "anchors": ["c++/symmetry/sym-*-impl.hpp:make_matrix", "c++/matrix.hpp:diag_function"]}
{"id": "C58", "title": "Operators of the shorter chain anticommute with those of the new site", "statement": "An electron operator carried over from the shorter chain and the creation operators of the new site anticommute: o f^+ + f^+ o = 0 between all families of a sector, with the coefficients the program uses.", "quantifier": "all shipped symmetries with tables of electron operators except QJ, QSC3, SPSU2C3, SPU1LR; all sectors; all pairs of families", "why_tests_cant": "A missing fermionic sign changes spectra of operators on the impurity only, for some symmetry types; infinitely many quantum numbers.", "anchors": ["c++/recalc.hpp:recalc_general", "c++/symmetry/sym-*-impl.hpp:recalc_doublet"]}
{"id": "C57", "title": "Operators carried to the longer chain keep their norm", "statement": "When an operator is carried from the smaller to the longer chain, the matrix elements produced by the coefficient tables are those of the operator acting on the old part of the product states alone: summing the products of coefficients over all families of all sectors the operator reaches gives one for equal families and zero for different ones, for each sector of the smaller system that the operator reaches. Every coefficient used is a defined number.", "quantifier": "all shipped symmetries with translated tables and all numbers of channels except those listed (tables missing, factors that divide by zero); all operators with tables; all sectors; all pairs of families", "why_tests_cant": "Infinitely many quantum numbers and thousands of generated factors; a wrong coefficient spoils operator norms and sum rules only slightly, and a factor that is not a number aborts only in the sector where it occurs.", "anchors": ["c++/recalc.hpp:recalc_general", "c++/symmetry/sym-*-impl.hpp:recalc_doublet", "c++/symmetry/sym-*-impl.hpp:recalc_triplet"]}
{"id": "C59", "title": "The operators of a symmetry do not depend on the number of channels", "statement": "If an operator can be carried along with one number of channels, it can be carried along between the same sectors with every other number of channels that the symmetry accepts; the program does not stop for want of a table.", "quantifier": "all shipped symmetries, all pairs of accepted channel numbers, all operator tables; exceptions listed and shown to be real", "why_tests_cant": "The case is missing from a switch that is reached only after the first step of a calculation with that symmetry, number of channels and operator kind; the combinations are many and each needs its own input file.", "anchors": ["c++/symmetry/nrg-recalc-*.hpp", "c++/symmetry/sym-*-impl.hpp:load"]}
{"id": "C60", "title": "Diagonalisation returns eigenpairs of the Hamiltonian, whichever routine is chosen", "statement": "When a Hamiltonian block is diagonalised, the returned energies and states are the lowest eigenpairs of the Hermitian matrix whose upper triangle was assembled: the states are orthonormal, each satisfies the eigenvalue equation, the energies ascend and no lower state is left out. All states are returned, except with the partial routines, which return the requested fraction rounded up. Enough workspace is always passed to LAPACK. An unknown routine name is refused, and an error of LAPACK is never ignored.", "quantifier": "all matrices, all six routines, all fractions, both memory-saving settings, every LAPACK library that keeps its documented contract", "why_tests_cant": "A wrong triangle, a missing conjugation or a transposed result shows only for complex or non-symmetric data; too small workspace depends on the matrix size and the library.", "anchors": ["c++/diag.hpp:diagonalise", "c++/diag.hpp:diagonalise_dsyevr", "c++/diag.hpp:select_workspace_size", "c++/diag.hpp:copy_results"]}
{"id": "C61", "title": "Matrix products through BLAS compute the product asked for, inside the block asked for", "statement": "The products used for basis transformations and density matrices add exactly factor times A B-adjoint, A O B-adjoint or U-adjoint O U to the target, for whole matrices and for blocks of larger matrices, real or complex; memory outside the target block is not changed and the contents of temporary storage do not matter. Factors that do not fit together or sizes beyond the range of BLAS end with an exception.", "quantifier": "all matrix shapes, all strides, all scalars, all contents of uninitialised memory", "why_tests_cant": "Row-major data are passed to a column-major library with swapped arguments; an error in a leading dimension or a transposition flag shows only for particular shapes, blocks or complex data.", "anchors": ["c++/blas_gemm.hpp:gemm_rowmajor", "c++/numerics_Eigen.hpp:product_Eigen", "c++/numerics_Eigen.hpp:transform_Eigen", "c++/numerics_Eigen.hpp:rotate"]}
{"id": "C62", "title": "Exactly the requested spectra and expectation values are computed, from operators transformed at every step", "statement": "A spectrum is computed in a run if and only if its name is one of the words of the corresponding parameter, both operators exist and the algorithm is switched on; it then receives a contribution at every step (and before the first one if calc0 is set). Both operators have been transformed at every step up to that one, never cleared or skipped. The expectation values of all singlet and global operators are computed at every step of the first run, and with the full density matrix at the chosen step of the second run, also from operators transformed at every step. The density matrix and the partition function used by an algorithm have been prepared.", "quantifier": "all parameters, all sets of operators, all numbers of steps, both runs, any transformation and any trimming of operators", "why_tests_cant": "Operators that are not needed are dropped to save time; whether one is dropped although it is needed later depends on the combination of all parameters, names and steps.", "anchors": ["c++/oprecalc.hpp:Oprecalc", "c++/oprecalc.hpp:recalculate_operators", "c++/measurements.hpp:calculate_spectral_and_expv", "c++/measurements.hpp:calc_Z", "c++/params.hpp:need_rho"]}
{"id": "C63", "title": "Every spectrum is saved to a file of its own", "statement": "If operator names contain no hyphen and singlet, odd-singlet and global operators have different names, all spectra of a run are written to different files. With hyphens in the names two spectra can share one file.", "quantifier": "all parameters and all sets of operators", "why_tests_cant": "File names are put together from prefixes, algorithms, operator names and spin; a clash needs a particular combination.", "anchors": ["c++/algo.hpp:spec_fn", "c++/oprecalc.hpp:loopover"]}
{"id": "C64", "title": "The data file is read as written, and inconsistent or incomplete files are refused", "statement": "Reading a data file with sensible contents stores every energy, operator matrix element and Wilson chain coefficient in its place, whatever the comments, line breaks and spacing; of several blocks of the same kind the last one counts. Any other text ends in an exception or in data that are consistent: distinct subspaces, finite matrices of the right size between known subspaces, no repeated block of a matrix, the right number of channels, operators and tables, and a table as long as announced. A file of another version or symmetry, and a file that ends inside its sizes, energies, operators or tables, is refused. The labels of the f operators are not looked at, and a file that ends between two blocks is accepted.", "quantifier": "all texts, all contents, all layouts, all conversions of digits to numbers", "why_tests_cant": "The format is free text with counts, comments and optional blocks; there are infinitely many layouts and points where a file can be cut or be wrong.", "anchors": ["c++/read-input.hpp:InputData", "c++/read-input.hpp:read_data_header", "c++/eigen.hpp:DiagInfo", "c++/operators.hpp:MatrixElements", "c++/operators.hpp:Opch", "c++/coef.hpp:set_of_coef_tables", "c++/basicio.hpp:read_one"]}
{"id": "C65", "title": "An NRG run solves the Wilson chain: its states and energies are those of the whole chain", "statement": "Whatever states are discarded on the way, the states stored after n steps are orthonormal states of the whole chain of cluster and n added sites, the stored energies (times the scale, plus the accumulated ground-state energy) and operator matrices are the matrix elements of the chain's Hamiltonian and of the creation operators of its last site between them, no energy is negative, and none lies below the ground-state energy of the chain. If nothing is discarded, the stored states are all the eigenstates of the chain, as many as it has dimensions, with their exact energies, the lowest being zero. The Hamiltonian is Hermitian and built from operators that anticommute. A run fails only if the diagonaliser does, if no state is kept or if a sector reaches a million states. The ratio of scales of successive steps is the factor by which energies are rescaled.", "quantifier": "all chain coefficients, all clusters, all truncation rules, all numbers of steps, all symmetry types with additive quantum numbers and one operator per table (QSZ, DBLQSZ, U1, NONE, SPU1, SL, SL3, each number of channels and each setting), all diagonalisers that return lowest eigenpairs", "why_tests_cant": "Tests compare single numbers of a few models with earlier output; the statement is about every chain, every length and every truncation, and ties together sector structure, hopping tables, operator recalculation and energy bookkeeping.", "anchors": ["c++/core.hpp:nrg_loop", "c++/core.hpp:iterate", "c++/core.hpp:do_diag", "c++/core.hpp:after_diag", "c++/recalc.hpp:split_in_blocks", "c++/recalc.hpp:recalc_f", "c++/symmetry/*:make_matrix", "c++/symmetry/*:recalc_irreduc", "c++/stats.hpp:update", "c++/params.hpp:nrg_step_scale_factor"]}
{"id": "C66", "title": "The Hilbert-transform tool computes the integral of rho(w)/(z-w) over the band", "statement": "Given an exact integration, the value returned for a complex z off the real axis is the integral of rho(w)/(z-w) over [-B,B]: exactly if |Im z| is at least the limit for direct integration or if Re z is outside the band, and up to 3 L |Im z| exp(-36.8) if Re z is inside the band, where L is a Lipschitz constant of the density of states around Re z. Tabulated densities are zero outside of the table. Converting a self-energy gives -1/pi (or 1) times the transform at omega minus the self-energy, line by line, with the imaginary part cut at -1e-8, stops at lines whose frequencies differ, and gives no negative spectral function. Exception: for Re z exactly at a band edge and |Im z| below the limit the integrals are left out and the value is wrong.", "quantifier": "all piecewise continuous complex densities of states, all bandwidths, all z with Im z <> 0, all tables and self-energy files", "why_tests_cant": "Tests evaluate a few points of the semicircular density; they cannot establish the subtraction, the substitutions and the choice of limits for every density and every z, and no test hits a band edge.", "anchors": ["tools/hilb/hilb.hpp:hilbert_transform", "tools/hilb/hilb.hpp:bandwidth", "tools/hilb/hilb.hpp:interpolator", "tools/hilb/hilb.hpp:do_hilb"]}
{"id": "C67", "title": "The Kramers-Kronig tool computes the principal value of the Kramers-Kronig integral", "statement": "Given an exact integration and a continuous interpolation with a derivative at Z, the value at every Z inside the range of the table is 1/pi times the principal value (the limit of vanishing symmetric cut-out) of the integral of f(x)/(x-Z) over the range. The output has one line per input point in increasing order. A table is accepted only if it has an even number of at least six points with distinct arguments, symmetric around zero within the tolerance, and every such table that is exactly symmetric is accepted, whatever the order of its lines. Exception: a table that is symmetric only within the tolerance and reaches further down than up is accepted and gives NaN at its lowest point.", "quantifier": "all functions, all ranges, all points, all input tables in any order", "why_tests_cant": "The regularised integrand, the correction term and the principal value agree only by an identity that must hold for every function and every point; tests compare two known transforms.", "anchors": ["tools/kk/kk.hpp:KK::calc", "tools/kk/kk.hpp:KK::f", "tools/kk/kk.hpp:KK::init"]}
{"id": "C68", "title": "The data file made from a template describes the template's model in the basis of its eigenstates", "statement": "For every sensible template (any number of subspaces, operators, comments and blank lines, matrices in files or in the template), instantiate produces a file from which the reader of data files gets: the energies of every subspace counted from the lowest eigenvalue of all and divided by the scale, every operator's matrix in the bases of eigenvectors of its two subspaces (elements up to 1e-14 as zero), the ground-state energy, the names, letters and order of the operators, the comments of the header, and the first Nmax+1 coefficients of the Wilson chain. These matrices describe the same operators as those of the template. Whatever the template, the tool stops with an error or produces a file that the reader accepts and whose contents are consistent. Exception: a matrix element that is not a number (such as Sqrt[-1]) is written as zero and accepted.", "quantifier": "all template texts, all numbers and sizes of subspaces, all matrices, all coefficient tables, all values of Nmax", "why_tests_cant": "Tests instantiate two shipped templates; the transformation, the layout of the text and the agreement with the reader must hold for every template.", "anchors": ["tools/instantiate/instantiate.cc:run_full_instantiation", "tools/instantiate/instantiate.cc:read_seed_data", "tools/instantiate/instantiate.cc:read_matrix_block", "tools/instantiate/instantiate.cc:process_template_tail", "tools/instantiate/instantiate.cc:write_matrix"]}
{"id": "C69", "title": "The instantiate tool reads the parameter file as the program does", "statement": "For every file in which all block headers are closed, the tool's value of a keyword in a block is that of the last assignment of the keyword in all blocks of that name, ignoring comments, blank lines and spaces. For a block that occurs once and gives each keyword once this is what the program reads. Exceptions, where the two disagree without a message: a block that occurs twice (the program takes the first, the tool merges them), a line with an open bracket (ends the block for the program only), a keyword given twice (an error for the program, the last value for the tool).", "quantifier": "all parameter files, all block names and keywords", "why_tests_cant": "Two separate parsers must agree on every text; tests use one tidy file.", "anchors": ["tools/instantiate/instantiate.cc:parse_param_sections", "c++/params.hpp:parser", "tools/instantiate/instantiate.cc:make_matrix_evaluator"]}
{"id": "C70", "title": "A run of instantiate changes only the data file and its temporary files", "statement": "Whatever the contents of the directory and whether or not the run succeeds, every file that is neither called data nor has the name of a temporary file is afterwards as before; no temporary file is left; the data file holds the complete text after a success and is untouched after a failure; without a readable parameter file nothing changes. Exceptions: the temporary files are recognised by name only, so that files the tool has not written are removed: matrices called ham.* that it was given in the current directory (a second run then fails), and a parameter file called param.dmft.", "quantifier": "all directories, all parameter files and names of blocks, all outcomes of the computation", "why_tests_cant": "Removal of files by patterns must be harmless in every directory; tests start from an empty one.", "anchors": ["tools/instantiate/instantiate.cc:cleanup_instantiation_temporaries", "tools/instantiate/instantiate.cc:remove_prefixed_files_noexcept", "tools/instantiate/instantiate.cc:run_full_instantiation", "tools/instantiate/instantiate.cc:resolve_template_file"]}
{"id": "C71", "title": "The tools read every row of a table", "statement": "A table of two columns with comments at the top is read completely and in order by kk, integ and intavg; resample and broaden also accept comments between the rows and report anything that is not a pair of finite numbers; adapt and nrgchain take every line that is neither empty nor a comment as a row, refuse rows with one word and files without rows, and from the hybridisation function take exactly the rows on one side of zero, with positive abscissas in increasing order; tdavg separates the blocks at comment lines and refuses rows of another width; what a tool writes the readers give back. Exceptions: kk, integ and intavg silently ignore everything after the first comment (or other text) below the first row; an indented comment is a row of zeros for adapt and nrgchain; tdavg accepts a first row without values, and rows with values after it.", "quantifier": "all texts, all number formats, all sets of rows and comments", "why_tests_cant": "The files come from other programs; tests use a few tidy tables, while the loss of rows in others goes unnoticed.", "anchors": ["tools/kk/kk.hpp:read", "tools/integ/integ.cc:readtable", "tools/intavg/intavg.cc:load", "c++/misc.hpp:readtable", "c++/misc.hpp:writetable", "tools/common/io.hpp:next_data_line", "tools/common/tabulated.hpp:load_pairs", "tools/common/tabulated.hpp:load_abs_pairs", "tools/common/tabulated.hpp:load_values", "tools/adapt/load.hpp:load_rho", "tools/tdavg/tdavg.cc:load"]}
{"id": "C72", "title": "The averaging tools give the mean of the interpolated curves", "statement": "intavg and tdavg evaluate all data sets on one common mesh, which is in order, consists of abscissae of the data, has a point within a relative distance of 1e-6 of each of them and no neighbours closer than that; at every mesh point the result is the arithmetic mean of the piecewise linear interpolants (constant outside their range), whatever was evaluated before; tdavg does so for every column, with the lines of a block in any order, and subtracts the mean of the reference, so that the data themselves as the reference leave zeros; references with another number of blocks are refused; the mean of equal tables is the table. Exceptions: an abscissa that is exactly zero is repeated once for every data set; intavg does not sort the tables, so that of a table in descending order only the first value is used.", "quantifier": "all numbers of data sets and columns, all tables of distinct abscissae, all references", "why_tests_cant": "The interpolation objects have a memory and the mesh depends on all data sets; tests compare a few averages.", "anchors": ["tools/intavg/intavg.cc:merge_meshes", "tools/intavg/intavg.cc:avg", "tools/tdavg/tdavg.cc:merge_meshes", "tools/tdavg/tdavg.cc:interpolate", "tools/tdavg/tdavg.cc:avg", "tools/tdavg/tdavg.cc:read_files"]}
{"id": "C73", "title": "integ integrates and resample evaluates the interpolated table", "statement": "integ gives, within the error of the quadrature, the integral of the interpolated table over its range, over the positive part, over the negative part, of the absolute value, and with the Fermi-Dirac weight at temperature T; therefore the two parts sum up to the total, the total is at most the integral of the absolute value, the weights for T and -T sum up to the total, and a non-negative function has an occupied part between zero and the total; the order of the lines plays no role, the last option decides what is printed. resample keeps the abscissae of the grid, gives the interpolating function inside the range, outside of it with -e the constants (by default the end values) and without -e no number; on the table's own grid it reproduces the table; -a or -b without -e and empty tables are refused. Exception: temperature zero gives no number when the range is symmetric about zero.", "quantifier": "all tables of distinct abscissae in any order, all interpolations through the points, all quadratures with a given error, all temperatures, all grids and options", "why_tests_cant": "The identities must hold for every function and range, including ranges on one side of zero; tests integrate a few functions.", "anchors": ["tools/integ/integ.cc:init", "tools/integ/integ.cc:f_fermi", "tools/integ/integ.cc:calc", "tools/integ/integ.cc:main", "tools/resample/resample.hpp:Resample::init", "tools/resample/resample.hpp:Resample::resample", "tools/resample/resample.hpp:Resample::parse_param"]}
{"id": "C74", "title": "annotated.dat and custom show the spectrum and the expectation values completely and under the right labels", "statement": "With dumpannotated = n > 0 the file annotated.dat of an iteration lists the n lowest levels (or all) in ascending order, at equal energies in the order of the quantum numbers, and goes on to the end of the last cluster of levels within grouptol. With dumpgroups every line stands for one group: the levels degenerate with its first one; its energy is that of the first level, the degeneracy the sum of the multiplicities, the quantum numbers those of its levels; no later level, written or not, is degenerate with the first level of a group; if all levels are written the degeneracies sum up to the number of states. The energies are in units of the scale, or absolute, divided by dumpEscale. In custom the columns are numbered and named consistently, and each holds the values of the operator it is labelled with, whatever was measured before. Exceptions: two levels within grouptol can be on different lines; a local and a global operator of the same name share one value.", "quantifier": "all spectra, multiplicities, settings, sets of operators and histories of measurements", "why_tests_cant": "Degeneracy within a tolerance is not transitive and depends on the whole spectrum; tests look at a few spectra.", "anchors": ["c++/output.hpp:Annotated::dump", "c++/output.hpp:scaled_energy", "c++/output.hpp:ExpvOutput", "c++/output.hpp:Output", "c++/numerics.hpp:my_fcmp", "c++/measurements.hpp:measure_singlet"]}
{"id": "C75", "title": "diag and unitary: the eigenvectors written by one diagonalise the matrix in the other", "statement": "diag reads the numbers up to the first word that is not a number, refuses a count that is not a square, and otherwise writes the ascending eigenvalues times the scale factor and an orthonormal set of eigenvectors as rows. unitary gives the scaled product of its three matrices, the outer ones transposed on request; matrices whose sizes do not fit stop it. With the eigenvectors of diag, unitary -l saves the diagonal matrix of the eigenvalues, with exact zeros outside the diagonal and in place of values below the tolerance. A text file is read as the rows it shows, blank lines and comments aside; rows of unequal lengths are refused. A binary file written by diag is read back unchanged, and a file cut short anywhere is refused. Exceptions: a matrix that is not symmetric is accepted and only its upper triangle used; a word such as 1.5.5 counts as one column and is read as two numbers.", "quantifier": "all matrices, sizes, scale factors, tolerances, file contents and truncation points, for every LAPACK that meets its contract", "why_tests_cant": "The statement ranges over all matrices and all ways to cut a file; tests diagonalise a few.", "anchors": ["tools/diag/diag.cc:diagonalize", "tools/diag/diag.cc:diag_stream", "tools/unitary/unitary.hpp:Unitary::run", "c++/io.hpp:read_matrix", "c++/io.hpp:save_matrix", "c++/basicio.hpp:get_dims"]}
{"id": "C76", "title": "bw: adaptive broadening conserves the weight on either side of zero and keeps its widths in bounds", "statement": "For valid options and readable files bw ends and writes exactly the files asked for. The raw data of all z are merged: each frequency once, in ascending order, with the weight summed over the files and divided by their number. Each row of the result is the value at a mesh point of the sum of the peaks on the same side of zero, broadened with the normalised kernel of Freyn and Florens, so that the result has the weight of the raw data above zero and below zero whatever the widths have become. After any number of passes every width is positive and between the smallest one allowed and b0, and is given by the logarithmic slopes of the integrated spectrum on both sides. The mesh is ascending, has no point at zero and contains the initial one; the option -d only adds geometric means of neighbours. Missing files, files with half a pair, b0 <= 0 and Nz < 1 are refused. Exceptions: with a lower end of the mesh that is not positive the program never ends, and the weight of a peak at zero frequency is lost without a message.", "quantifier": "all raw data, numbers of files, options, numbers of passes, and builds with or without assertions", "why_tests_cant": "Conservation of weight is an integral over all frequencies for every set of peaks and widths, and the bounds hold after every number of passes; tests look at a few spectra on a finite mesh.", "anchors": ["tools/bw/bw.cc:merge", "tools/bw/bw.cc:bfnc", "tools/bw/bw.cc:broaden", "tools/bw/bw.cc:calc_b", "tools/bw/bw.cc:recalc_b", "tools/bw/bw.cc:refine_mesh", "tools/bw/bw.cc:make_mesh", "tools/bw/bw.cc:main"]}
{"id": "C77", "title": "adapt: the discretisation function written to FSOL.dat solves the discretisation equation", "statement": "For a positive density of states given by a table, adapt writes a file whose first line is (1, 1/Lambda) and whose further lines lie at the multiples of the output step (up to 1e-10), up to the first one beyond xmax or with |f| > max_abs. Each line is reached from the one before by at most a million Runge-Kutta steps of the discretisation equation, in which E(x) = f(x) Lambda^(2-x) obeys E'(x) rho(E(x)) = -(weight of rho between eps(x+1) and eps(x)); each step is such that Heun's formula agrees within allowed_error, or is the longest step halved max_subdiv times, and E does not grow in it. As the steps become shorter the lines converge to the solution of the equation, at least in proportion to the step length. With adapt=true eps is taken from the table g, which solves its own equation for a constant A whose last value agrees with A/rho(0) within secant_eps. The first value of A is the weight up to 1, the second differs by factor0, the further ones follow from the secant formula, at most max_iter of them. The program ends, and gives up only if a step would increase E or if there are too many steps; with steps that are short enough (and a million of them enough for a line) neither happens and the file is completed. Exceptions: with outputstep=0, which is accepted, it writes lines for ever, and with max_subdiv=0, also accepted, it stops as soon as a step is accurate enough.", "quantifier": "all tables of positive densities with increasing frequencies, all parameters (Lambda, gap, band rescaling, steps, tolerances), fixed and adaptive grids, tables g read from a file", "why_tests_cant": "Convergence is a statement about all small step lengths and all densities; a test compares a few lines of one file with numbers from an earlier version, and every rounding of a kink in the table changes the sequence of steps.", "anchors": ["tools/adapt/adapt.hpp:rhs_F", "tools/adapt/adapt.hpp:rhs_G", "tools/adapt/adapt.hpp:rk_step", "tools/adapt/adapt.hpp:timestep", "tools/adapt/adapt.hpp:int_with_to", "tools/adapt/adapt.hpp:shoot_g", "tools/adapt/adapt.hpp:calc_g", "tools/adapt/adapt.hpp:calc_f", "tools/adapt/adapt.hpp:load_init_rho", "tools/adapt/adapt.hpp:set_parameters"]}
{"id": "C78", "title": "matrix: every line of the input gives the values of its expressions", "statement": "The tool matrix, given an input of comments, headings, textual parameters, assignments, expressions, rows and matrices, writes for each expression, row and matrix the values denoted by the expressions under the usual precedence and left associativity, with the variables assigned on earlier lines, the coefficients of the Wilson chains that xi, zeta, delta, kappa and V indices select, and the square root and exponential functions; ignored lines change nothing. Every input is read in finitely many steps with one result, and what is written for any input, also one that ends at an error, is the output of statements of the language; nothing else is ever accepted. (The division by zero, functions applied to a bare name, comments after a statement, exponents after several digits and the empty matrix are findings.)", "quantifier": "every input of such lines of any length and nesting with at most 196 distinct names, every number type, chain, prefix and number format; the termination for every input text", "why_tests_cant": "precedence, look-ahead (a newline inside a matrix, the minus sign of a row's first element) and the scanner's longest match interact in unboundedly many ways; tests give a few expressions", "anchors": ["tools/matrix/matrix.ll", "tools/matrix/parser.yy", "tools/matrix/matrix.h: NSYMS, struct symtab", "tools/matrix/parser.yy: symlook, gammapolch, coefxi, coefzeta, dump_vector, dump_matrix, main"]}
{"id": "C79", "title": "Timing and memory report: the lines add up to the whole run", "statement": "The report at the end of a stand-alone run gives the whole time, for each kind of timed section that took more than 1% of it the sum of the durations of all its occurrences, in alphabetical order, and the remaining time; no line is negative and they add up to the whole time. A timed section opened inside another one ends the run with an exception instead of being counted twice. The memory is printed with its digits in groups of three, and the peak is the largest reading.", "quantifier": "every sequence of timed sections of any names and lengths with a clock that does not go back, every number of digits, every sequence of memory readings", "why_tests_cant": "times differ from run to run and the sequence of sections depends on the parameters and the number of iterations", "anchors": ["c++/time_mem.hpp: Timing, TimeScope, MemoryStats, format_memory_usage"]}
{"id": "C80", "title": "Start of the program on several processes: all agree whether to run", "statement": "When nrg is started on any number of MPI processes and the runtime check succeeds on each, then whatever the order in which they proceed no process waits for ever, and all take the same decision: all return success if help was asked for, all return failure if process 0 does not see the file data or param (whatever the others see), and otherwise process 0 becomes the master and all others become slaves. The working directory is created in the directory of the option -w, otherwise in that of the variable NRG_WORKDIR, otherwise in the current one. (Finding: if the runtime check fails on process 0 only, the others wait for ever.)", "quantifier": "every number of processes, every interleaving of their steps, all command lines, environments and presence of the input files", "why_tests_cant": "the interleaving is chosen by the MPI library and the system; a test sees one number of processes and one order", "anchors": ["c++/nrg.cc: help, set_workdir, main"]}
