{
 "C01": {
  "note": "combine/inverse on arbitrary signatures; int overflow not modelled."
 },
 "C02": {
  "note": "For all 51 shipped tables and for any well-formed table."
 },
 "C03": {
  "note": "All 51 shipped table pairs, all multiplets (unbounded quantum numbers)."
 },
 "C04": {
  "note": "Whole-step state count, no int overflow for the shipped tables, completeness of the schedule."
 },
 "C05": {
  "note": "Tiling proved; SubspaceDimensions::total wraps for sums of 2^31 and above (refuted), unreachable for shipped tables (C04)."
 },
 "C06": {
  "note": "TaskList and tasks_descending_by_subspace_dimension."
 },
 "C07": {
  "note": ""
 },
 "C08": {
  "status": "proved",
  "note": "For every setting and outcome; plus the full path from raw eigenvalues (shift, splitting clean-up, truncation) with absence of assertion failures and undefined behaviour. Energies are integers (order only), NaN not modelled. floquet=false in the raw-energy theorem."
 },
 "C09": {
  "status": "proved",
  "note": "Exact characterisation of the cutoff, count bounds, clamping. Needs keep+safeguardmax < 2^64; beyond that the prefix size wraps and the guarantee fails (refuted theorem)."
 },
 "C10": {
  "status": "proved",
  "note": "Uncomputed states are never below kept ones; cutoff equals the full-spectrum cutoff when keep < number of computed states. Finding: when keep >= number of computed states the incomplete diagonalisation is not noticed and fewer than keep states are kept (refuted theorem)."
 },
 "C11": {
  "status": "proved",
  "note": "Ratios are exact rationals (double rounding not modelled). Finding: restartfactor in [0,1] is not rejected and loops forever (refuted theorem)."
 },
 "C12": {
  "status": "proved",
  "note": "Existence and uniqueness of the cleaned-up spectrum."
 },
 "C13": {
  "status": "proved",
  "note": "For every permutation allowed by std::sort."
 },
 "C14": {
  "status": "proved",
  "note": "StoredEigen::all() agrees with Drange() only for complete diagonalisation; otherwise it exceeds the computed states (refuted theorem; Params::validate forbids this combination for FDM with dsyevr/zheevr)."
 },
 "C15": {
  "status": "proved",
  "note": "Message-level model of master and workers (every send/receive/probe is one step; FIFO per pair, tag matching, arbitrary interleaving, buffered or blocking sends). Proved: invariant, result, no failure, boundedness, deadlock freedom. Not modelled: parameter broadcast, exceptions inside LAPACK/MPI."
 },
 "C16": {
  "status": "proved",
  "note": "Serial fold, OpenMP dynamic schedule as a transition system, MPI system of C15; diagonalise is a function of the matrix (LAPACK determinism is an assumption)."
 },
 "C17": {
  "status": "proved",
  "note": "Save is modelled as an I/O program over a directory (name -> bytes), with an arbitrary list of events deciding success, failure, process death and early write-out at every operation (DiagInfo::save, DensMatElements::save have the same shape). Proved: final name always old or complete new version; failure leaves the old version and no temporary unless deleting it also failed; other steps' files untouched; any history of saves; restart-and-load gives old or new object. Power loss (no fsync before rename) is outside the property."
 },
 "C18": {
  "status": "proved",
  "note": "Load modelled as an I/O program with arbitrary events; the reader is an arbitrary total function from bytes, instantiated by the archive reader in C19."
 },
 "C19": {
  "status": "proved",
  "note": "Byte-level archive model (integers little-endian, floating-point numbers by their memory image, archive header as constant bytes). Round trip and rejection of every proper prefix for matrices, eigen records, unitary files and density-matrix files. c_shift is not stored by the code: hypothesis shift_unset, true in every run because set_c_shift is never called."
 },
 "C20": {
  "status": "proved",
  "note": "Exact arithmetic over any algebraically closed field with conjugation; hypotheses: shipped symmetry, sectors of each step scheduled from the kept states of the previous one, orthonormal stored eigenvectors, positive Boltzmann factors, at most 10^6 kept states per sector."
 },
 "C21": {
  "status": "proved",
  "note": "Real arithmetic (rounding, overflow and underflow not modelled). Hypotheses: T>0, all states of a sector computed, positive degeneracies, T_shift common to a step (set by finalize_nrg_iteration_metadata), last step not empty."
 },
 "C22": {
  "status": "proved",
  "note": "Complete diagonalisation is assumed, as params.hpp:628-631 enforces for FDM runs; shell weights non-negative, zero for shells without discarded states and positive for the last shell (shown for the computed weights under C21)."
 },
 "C23": {
  "status": "proved",
  "note": "Exact arithmetic over any algebraically closed field; output = sequence of add() calls as a multiset. DD, KD, DK pairs each once, kept-kept never; weights shown equal to the independent Lehmann formulas."
 },
 "C24": {
  "status": "proved",
  "note": "Both grids; real numbers instead of doubles. Peaks below the clipping threshold are ignored (theorem); zero-energy peaks on the shifted grid are lost: see C45."
 },
 "C25": {
  "status": "proved",
  "note": "All fitting settings, linear and tanh windows, real arithmetic; settings that do not fit are refuted in C46."
 },
 "C26": {
  "status": "proved",
  "note": "The reader of the main program, its list of parameters and the reader of the tools adapt and nrgchain. Conversion of numbers (boost::lexical_cast, atof) is external. The tools disagree with the main program on headers with white space, repeated keywords and most words for true (C26_tools_agree_refuted)."
 },
 "C27": {
  "status": "proved",
  "note": "Arbitrary work per step, including failures."
 },
 "C28": {
  "status": "partial",
  "note": "REFUTED: Invar(const InvType&) asserts d.size()==data.size() while data is still empty, so InvertParity() always throws and parity-odd singlets can never be recalculated. The property is false of the code; the theorem proves that."
 },
 "C29": {
  "status": "partial",
  "note": "Refuted: init_laststored() runs in the Params constructor while Nmax is still 0, so no stored step is ever reused; C29_resume_with_known_Nmax shows what the code would do if the search ran later. (The working directory is moreover a fresh mkdtemp directory in every run.)"
 },
 "C30": {
  "status": "proved",
  "note": "Real arithmetic. C_fdm>=0 and S=(E-F)/T hold unconditionally; equality of E, C, S with the Gibbs values and invariance under energy shifts need every non-empty shell to have weight above the code's cut 1e-16 (shells below it are dropped by the code)."
 },
 "C31": {
  "status": "proved",
  "note": "Real arithmetic without rounding. The property holds for tables with strictly increasing abscissae; with a repeated abscissa the value depends on the history of calls or is NaN (C31_repeated_abscissa_refuted)."
 },
 "C32": {
  "status": "proved",
  "note": "Files are lists of doubles in rows; all Nz, tables, columns. Every linear functional of the spectrum is averaged exactly (over the reals). NaN frequencies and int overflow of the line count are outside the model."
 },
 "C33": {
  "status": "proved",
  "note": "For every shipped table, every list of hopping/shift/coupling lines, every sector and all block sizes: success exactly when each line is acceptable, and the Hermitian completion of the stored upper triangle equals rescaled old energies plus the sum of the operators (each plus its adjoint). Finding: the QJ symmetry wraps the hopping term in a check that indexes the ancestor list from 1 instead of 0, so its first line is always dropped and the lines naming the last local state are undefined behaviour (two _refuted theorems)."
 },
 "C34": {
  "status": "proved",
  "note": "Both directions against an inductive grammar, independent of the arithmetic (any interpretation of numbers and functions). strtod's value and libm are parameters. Finding: a NaN index (e.g. coefxi[sqrt(-1),1]) is converted to int, which is undefined."
 },
 "C35": {
  "status": "proved",
  "note": "Exact real arithmetic. Proved for decreasing meshes with some hybridisation; otherwise NaN tables pass the checksum test (C35_nan_accepted_refuted)."
 },
 "C36": {
  "note": "Holds for all shipped symmetries except SPSU2LR, where the singlet sector (0,1) never satisfies the triangle rule so every singlet operator is silently lost (finding, refuted theorem)."
 },
 "C37": {
  "note": ""
 },
 "C38": {
  "status": "proved",
  "note": "Abstract matrix operations (zero, transform, isfinite); CUDA branch not modelled."
 },
 "C39": {
  "status": "proved",
  "note": "Both for the reduced and the full density matrix, for all consecutive steps of the second pass."
 },
 "C40": {
  "status": "proved",
  "note": "Real arithmetic; diagonal elements real. measure_singlet_fdm is covered by C39."
 },
 "C41": {
  "status": "proved",
  "note": "Real arithmetic; number formatting not modelled. Tables extracted from the sources by gen/gen_columns.py."
 },
 "C42": {
  "status": "proved",
  "note": "Scalar (singlet) operators with diagonal blocks, all 51 shipped tables, complete diagonalisation as params.hpp requires for FDM; operators transformed to each step's eigenbasis as C36 shows. Non-scalar operators are not covered."
 },
 "C43": {
  "status": "partial",
  "note": "Refuted for bosons: before the last step all peaks have the wrong sign (C43_cfs_bosons_negated, C43_cfs_bosons_refuted); and cfsls/cfsgt selected separately return each other's part before the last step (C43_cfsls_part_refuted). Proved for fermions with the combined algorithm and for the last step."
 },
 "C44": {
  "status": "partial",
  "note": "FT proved. DMNRG proved for symmetric (real) density matrices; refuted for complex Hermitian ones: gemm_rowmajor uses the transposed density matrix."
 },
 "C45": {
  "status": "proved",
  "note": "The property itself is refuted: the shifted grid starts at DBL_MIN > 0, so weight at energy zero is always dropped."
 },
 "C46": {
  "status": "proved",
  "note": "The property itself is refuted in four ways (findings)."
 },
 "C47": {
  "status": "proved",
  "note": "Exact arithmetic (the code uses GMP with configurable precision)."
 },
 "C48": {
  "status": "proved",
  "note": "The flat-band formula; the adaptive variant reads the energies from a table."
 },
 "C49": {
  "status": "proved",
  "note": "Over the reals; skewness and kurtosis printed in verbose mode are not modelled."
 },
 "C50": {
  "status": "proved",
  "note": "Over the reals; the Bose factor at zero frequency is the non-finite case that the code skips."
 },
 "C51": {
  "status": "proved",
  "note": "Kernel well-defined and non-negative, symmetric, exact weight on any positive interval (change of variables, Coquelicot), total weight conserved with the normalised cross-over and no accumulation point (C51_total_weight, on the Gaussian integral of Gauss.v). Findings: a mesh loaded from a file may contain zero, where the result is not a number (_refuted); with an accumulation point the kernel of a peak above the point has total weight larger than one (C51_accumulation_refuted)."
 },
 "C52": {
  "status": "proved",
  "note": "Fermionic frequencies, the only ones the tool can be asked for."
 },
 "C53": {
  "status": "proved",
  "note": "All 49 sets of tables. Label theorem for spins at least 4 (in units of the stored numbers); the operators listed in lost are refuted. Row theorem for operators other than the new site's excludes SPU1LR, whose tables give sectors without parity."
 },
 "C54": {
  "status": "proved",
  "note": "46 sets; coefficients evaluated over the real numbers, so rounding is not covered. QJ (C33 finding) and the complex C3 sets are excluded. The sum over components is the scalar part of the anticommutator."
 },
 "C55": {
  "status": "proved",
  "note": "Sets with doublet tables (not PP, QSZLR, ISO 3ch, SPU1LR; not QJ, QSC3, SPSU2C3). The smaller system's operator uses corrected labels and signs where C53/C58 refute the shipped ones. QST and SPSU2T: orbital (and spin) numbers at least 3. Real arithmetic. U1 non-polarised: partner has the opposite spin (refuted). Anomalous hopping lines are not covered."
 },
 "C56": {
  "status": "proved",
  "note": "46 sets minus isospin types, which have no such lines. Real arithmetic; how the offset of the average occupation is subtracted is not part of the statement."
 },
 "C57": {
  "status": "proved",
  "note": "All translated sets except SPU1LR and the triplets of SPSU2 with three channels; sectors with a division by zero are excluded by gap. The NaN of QS with three channels and the missing table of SPSU2 are separate refuted theorems. Tables of global operators and of the substeps mode are not translated."
 },
 "C58": {
  "status": "proved",
  "note": "With corrected labels (C53) and with the missing sign of P and ISOLR put in; for P as shipped the relation is refuted. QST and SPSU2T: orbital (and spin) numbers at least 3."
 },
 "C59": {
  "status": "proved",
  "note": "All sets with tables; ISO (3 channels) doublets and triplets, QSZ (3) and SPSU2 (3) triplets are the exceptions, each shown to be missing."
 },
 "C60": {
  "status": "proved",
  "note": "For every LAPACK meeting its documented contract (hypothesis, satisfied by an example library) and exact arithmetic. CUDA variants not modelled, except the sorting of eigenpairs. Finding: overflow with dsyevr/zheevr beyond dimension 46340 (C60_large_refuted)."
 },
 "C61": {
  "status": "proved",
  "note": "Exact arithmetic; the effect of dgemm/zgemm is taken from its documentation. rotate and rotate_diagonal are shown equal to the definitions used in the density-matrix theorems."
 },
 "C62": {
  "status": "proved",
  "note": "For all parameters and operator sets; the transformation and trimming of matrices are arbitrary functions. Matrix contents are the subject of other claims. Floquet recalculation and CUDA are not modelled."
 },
 "C63": {
  "status": "proved",
  "note": "Proved for names without hyphens (stated in the property); refuted without that condition."
 },
 "C64": {
  "status": "proved",
  "note": "Reading of the data file; numbers are converted by an argument. The indices of the f blocks are ignored and cuts between blocks are accepted: _refuted theorems."
 },
 "C65": {
  "status": "proved",
  "note": "26 combinations of symmetry type, number of channels and setting. Not covered: types with multiplets (their tables are C53-C59), P and PP (tables of annihilation operators), U1 without spin-dependent chains (C55), substeps, fixeps > 0. The diagonaliser is any function with the contract proved in C60; arithmetic is exact."
 },
 "C66": {
  "status": "proved",
  "note": "With the integration routine exact. The value is exact off the band and for direct integration, with a stated error inside; the band edge is refuted (C66_edge_refuted). Im z = 0 and the accuracy of the quadrature are not covered."
 },
 "C67": {
  "status": "proved",
  "note": "With exact quadrature and the spline as an arbitrary function with a continuous extension. C67_asymmetric_refuted shows the NaN for slightly asymmetric tables."
 },
 "C68": {
  "status": "proved",
  "note": "Real arithmetic with the contract of LAPACK (C60) as hypothesis; the text of numbers is abstract (read18, read16 are what is read back). C68_not_a_number_refuted shows the NaN that becomes zero."
 },
 "C69": {
  "status": "proved",
  "note": "Last assignment in all blocks of a name; agreement with the program for blocks that occur once. Disagreements for repeated blocks, open brackets and repeated keywords shown."
 },
 "C70": {
  "status": "proved",
  "note": "Other files kept, temporaries removed, data file complete or untouched. Removal of files the tool did not write shown. Names with a slash are not modelled."
 },
 "C71": {
  "status": "proved",
  "note": "Readers A (kk, integ, intavg), B (misc.hpp readtable), C (adapt, nrgchain), D (tdavg) of tables. The conversion of digits is an argument. Three violations are proved: comments inside a table lose its rest (kk, integ, intavg), indented comments become rows of zeros, a first row without values in tdavg."
 },
 "C72": {
  "status": "proved",
  "note": "Mesh and averages of intavg and tdavg over the real numbers, with the state of the interpolation objects. Two violations are proved: repeated rows at abscissa zero, descending tables in intavg."
 },
 "C73": {
  "status": "proved",
  "note": "Integrals and resampling of an interpolated table; GSL's spline and quadrature enter through contracts. Finding: temperature zero gives NaN for a range symmetric about zero."
 },
 "C74": {
  "status": "proved",
  "note": "Levels and groups of annotated.dat and the columns of custom. Findings: chains of nearly degenerate levels are split; operators of the same name share a value."
 },
 "C75": {
  "status": "proved",
  "note": "For every dsyev that meets its contract (shown for an example): eigenvalues and eigenvectors of symmetric matrices, what unitary computes, both tools together, text and binary files. The contract for the bytes of a double is assumed only for the numbers written. Non-symmetric matrices and words with two numbers are the exceptions (C75_triangle_refuted, C75_words_refuted)."
 },
 "C76": {
  "status": "proved",
  "note": "Everything about the run, the weights, the widths and the mesh is proved for valid options (positive lower end, ratio > 1, b0 > 0, q > 0). C76_endless_refuted and C76_zero_peak_refuted are the two exceptions. Numbers are real: rounding and the six digits of the output are not modelled."
 },
 "C77": {
  "status": "proved",
  "note": "Proved for positive densities (where the program never divides by zero), non-negative steps and max_subdiv >= 1. C77_endless_refuted and C77_no_subdivisions_refuted are the two exceptions. Numbers are real: rounding is not modelled. Convergence and completion are proved for the fixed grid and for a given table g; the solution of the equation is assumed to exist on [1,X]. Nothing is claimed about the convergence of the secant method (only that what it accepts is within the tolerance)."
 },
 "C78": {
  "status": "proved",
  "note": "Scanner, parser and symbol table of the tool matrix. Proved: every input of assignments, expressions, rows, matrices and ignored lines gives the denoted values line by line; every text is read in finitely many steps with one result; against a grammar on tokens, soundness for every input (also of runs that end early), completeness and uniqueness of the output; the scanner against the regular expressions of matrix.ll with the longest match. Findings as refutations: division by zero gives the dividend, f[x] with a bare name loses its argument (and the rest of the line is read), a comment after a row is a syntax error, exponents after several digits end the run, the empty matrix has no newline. C78_names, C78_exit: a text read to its end has at most 196 new names, and the tool exits only at an unmatched closing brace or at the 197th new name. C78_safe: with integers that fit into an int and loaded coefficients nothing undefined happens."
 },
 "C79": {
  "status": "proved",
  "note": "Timer, scope objects, accumulators and report of time_mem.hpp: the report for every sequence of sections, the exception for nested sections, grouping of digits, peak of the memory. Times are integers (ticks); conversion to seconds and rounding are left out."
 },
 "C80": {
  "status": "proved",
  "note": "C80_agree: for every number of processes and every interleaving the start ends after at most three steps of each process and all agree (return with the same status, or process 0 is the master in the right working directory and the others are slaves). C80_uneven_refuted: if the runtime check fails only on process 0 the others wait for ever. Modelled: nrg.cc main up to the master and slave parts; messages left out, the runtime check is a parameter."
 }
}