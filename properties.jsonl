{"id": "C01", "title": "Electron and orbital accounting of a System", "statement": "Creating a System with nelectrons, norbitals, multiplicity, nfrozen and ndelete yields occupied/unoccupied counts with noccupied_alpha+nunoccupied_alpha = noccupied_beta+nunoccupied_beta = the number of correlated orbitals, noccupied_alpha-noccupied_beta = multiplicity-1 and noccupied_alpha+noccupied_beta = correlated electrons, provided nelectrons and multiplicity have opposite parity; when the parities agree the constructor does not fail but silently drops one electron.", "quantifier": "all integer inputs with at least as many electrons as unpaired spins", "why_tests_cant": "Unit tests fix a handful of molecules; the claim has to hold for every electron/orbital count, including the inconsistent-parity inputs no example uses.", "anchors": ["ccpy/models/system.py: System.__init__"]}
{"id": "C02", "title": "Symmetry of the reference determinant", "statement": "With the default occupation pattern the reference_symmetry reported by a System is the irrep product of the singly occupied orbitals only; in particular every closed-shell system has a totally symmetric reference, whatever the orbital labels are. The irrep list of the correlated orbitals is that of the full list shifted by the frozen core.", "quantifier": "all numbers of frozen/occupied/virtual orbitals, all assignments of irreps to orbitals", "why_tests_cant": "Unit tests fix a handful of molecules; the claim has to hold for every labelling of orbitals.", "anchors": ["ccpy/models/system.py: System.__init__"]}
{"id": "C03", "title": "Active-space partition of the orbitals", "statement": "After set_active_space(nact_occupied, nact_unoccupied) the core, active-occupied, active-unoccupied and virtual counts are non-negative and add up to the orbital count for the alpha spin for every input; for the beta spin this holds exactly when the alpha and beta unoccupied counts coincide or the surplus is absorbed, and there is an open-shell input where the beta virtual count is wrong. For consistent electron counts the active window is the same set of orbitals for both spins.", "quantifier": "all systems and all active-space sizes", "why_tests_cant": "Unit tests fix a handful of molecules; the claim has to hold for all sizes, including active spaces larger than the orbital spaces and open shells.", "anchors": ["ccpy/models/system.py: System.set_active_space", "ccpy/models/system.py: System.set_full_active_space"]}
{"id": "C04", "title": "Point-group product tables", "statement": "For every supported point group the irrep-to-number assignment is injective, the irrep products computed by the code are closed, commutative, associative, have the first irrep as identity and every irrep as its own inverse, and agree with the explicit product table stored for that group.", "quantifier": "all supported point groups, all tuples of irreps", "why_tests_cant": "A test checks a few products; the group laws range over all irreps and lists of irreps of any length.", "anchors": ["ccpy/utilities/symmetry.py: get_pg_irreps", "ccpy/utilities/symmetry.py: sym_table"]}
{"id": "C05", "title": "Excitation counts resolved by irrep", "statement": "count_singles, count_doubles and count_triples return per-irrep counts that equal the number of distinct excited determinants of that irrep, and whose sum over irreps is the closed-form number of spin-conserving excitations (products of binomial coefficients).", "quantifier": "all orbital space sizes and all orbital irrep labellings", "why_tests_cant": "Unit tests fix a handful of molecules; the claim has to hold for every size of the occupied and unoccupied spaces.", "anchors": ["ccpy/utilities/symmetry.py: count_singles, count_doubles, count_triples"]}
{"id": "C06", "title": "Amplitude vector round trip", "statement": "For a cluster operator of any excitation order, flattening gives a vector of exactly ndim entries; unflattening that vector into any operator of the same shape restores every amplitude, and flattening an unflattened vector returns the vector, so Davidson/DIIS vectors and operators carry the same data. The operator has one block per order and number of beta indices: a dense array of the shape of its spin case, a list as long as the P space of that order and spin case, or the active-space blocks with at least the number of active holes and particles given for that order, each order using its own entry of the size arguments.", "quantifier": "all orbital space sizes, all excitation orders, all amplitude values, P-space lists of any non-zero length at the highest order", "why_tests_cant": "Unit tests fix a handful of molecules; the claim has to hold for all orders and dimensions; an off-by-one in an offset only shows for particular shapes.", "anchors": ["ccpy/models/operators.py: ClusterOperator.__init__, flatten, unflatten, get_operator_dimension, get_operator_name"]}
{"id": "C07", "title": "Where the amplitude vector layout breaks", "statement": "If a P-space spin case is declared with zero excitations, the flattened vector of a cluster operator is longer than its declared ndim (one extra entry per empty spin case); and if a restricted order is followed by an unrestricted higher order, restoring a flattened vector fails or misplaces amplitudes.", "quantifier": "all P-space excitation counts; existence of the failing inputs", "why_tests_cant": "The suite never builds an operator with an empty spin case or with a P-space below the top order.", "anchors": ["ccpy/models/operators.py: ClusterOperator.__init__, flatten, unflatten"]}
{"id": "C08", "title": "Layout of electron-attached/ionised and spin-flip operators", "statement": "FockOperator (IP/EA/DIP/DEA, any number of particles and holes and any order) and SpinFlipOperator vectors have length ndim, and flatten/unflatten are mutually inverse.", "quantifier": "all particle/hole numbers, orders, orbital sizes and values", "why_tests_cant": "Unit tests fix a handful of molecules; the claim has to hold for all particle/hole combinations.", "anchors": ["ccpy/models/operators.py: FockOperator, SpinFlipOperator"]}
{"id": "C09", "title": "Extending a P space keeps the converged amplitudes", "statement": "Extending a P-space operator to longer excitation lists keeps every old singles, doubles and triples amplitude at its old position and sets every new triples amplitude to zero.", "quantifier": "all old and new lengths, all amplitude values", "why_tests_cant": "Unit tests fix a handful of molecules; the claim has to hold for every growth history of the adaptive calculation.", "anchors": ["ccpy/models/operators.py: ClusterOperator.extend_pspace_t3_operator"]}
{"id": "C10", "title": "Permutation parity is the sign", "statement": "The parity returned for a permutation of 0..n-1 is +1 exactly when the permutation is a product of an even number of transpositions, i.e. (-1)^(number of inversions), for every n.", "quantifier": "all permutations of all lengths", "why_tests_cant": "A test can enumerate only small n.", "anchors": ["ccpy/utilities/permutations.py: calculate_permutation_parity"]}
{"id": "C11", "title": "Lineup permutation", "statement": "Lining up one index list against another returns a rearrangement of it in which every index common to both lists stands in the same position as in the other list, with the sign of the rearrangement.", "quantifier": "all index lists without repetition", "why_tests_cant": "Ranges over all lists.", "anchors": ["ccpy/utilities/permutations.py: do_lineup_permutation"]}
{"id": "C12", "title": "Excitation extraction from determinants", "statement": "For two determinants with the same number of electrons, the holes and particles reported are exactly the set differences, there are as many holes as particles, their number is the excitation rank, the rank is symmetric and zero exactly for equal determinants, and applying the excitation to the reference gives the determinant back; the spin string has the alpha excitations first.", "quantifier": "all pairs of determinants (sets of spin orbitals)", "why_tests_cant": "Ranges over all determinants.", "anchors": ["ccpy/utilities/determinants.py: get_excit_rank, get_excits_from, get_excits_to, get_spincase, spatial_orb_idx"]}
{"id": "C13", "title": "Active-orbital triples P space is complete and duplicate free", "statement": "The active-space triples list for a spin case contains, each exactly once, precisely the ordered triples whose numbers of active occupied and active unoccupied indices both reach the requested value (and whose irrep matches when a target is given); if there are none the list is the single row of ones. The 3p2h and 4p2h lists (active particles only) and the 3h2p lists (active holes only) are complete and duplicate free in the same sense.", "quantifier": "all orbital and active-space sizes, all num_active values, all spin cases", "why_tests_cant": "Unit tests fix a handful of molecules; the claim has to hold for all sizes.", "anchors": ["ccpy/utilities/pspace.py: get_active_triples_pspace", "ccpy/utilities/pspace.py: get_active_3p2h_pspace, get_active_3h2p_pspace, get_active_4p2h_pspace"]}
{"id": "C14", "title": "P and Q spaces partition the triples", "statement": "For every in-range P-space list the triples Q space contains each ordered triple of the target symmetry that is not in the list exactly once and nothing else, so a P space made of genuine triples (or the placeholder) and its Q space split the triples of that spin case; the same holds for the active-orbital P and Q routines. A list whose first row is the placeholder is read as empty, and a label beyond the orbital count raises.", "quantifier": "all P-space lists, all orbital sizes", "why_tests_cant": "Quantifies over every possible P space.", "anchors": ["ccpy/utilities/qspace.py: get_triples_qspace, get_active_triples_qspace"]}
{"id": "C15", "title": "P-space triples to dense tensor", "statement": "Scattering a P-space amplitude list into the dense triples tensor yields a tensor that is antisymmetric in each same-spin index group, equals the listed amplitude at each listed excitation and is zero at every ordered triple not listed.", "quantifier": "all lists of distinct ordered excitations with strictly ordered same-spin indices, all amplitudes", "why_tests_cant": "Unit tests fix a handful of molecules; the claim has to hold for all P spaces.", "anchors": ["ccpy/utilities/utilities.py: unravel_triples_amplitudes, convert_t3_from_pspace"]}
{"id": "C16", "title": "Active-space zeroing of triples", "statement": "Zeroing the triples outside the active space keeps exactly the amplitudes with at least num_act active holes and at least num_act active particles, sets every other element with pairwise different equivalent indices to zero, leaves the (vanishing) elements with repeated indices alone, is idempotent and preserves antisymmetry.", "quantifier": "all tensors and active-space sizes", "why_tests_cant": "Unit tests fix a handful of molecules; the claim has to hold for all sizes.", "anchors": ["ccpy/utilities/active_space.py: zero_t3aaa_outside_active_space and siblings"]}
{"id": "C17", "title": "Growing the P space from selected triples", "statement": "Adding selected spin-orbital triples keeps the old list as a prefix (after dropping a placeholder row), appends every selected triple to the list of its spin case in selection order, and for restricted references keeps bbb equal to aaa and abb equal to the spin-flipped aab at every point of every history of additions.", "quantifier": "all histories of additions, all selected lists", "why_tests_cant": "Ranges over histories.", "anchors": ["ccpy/utilities/selection.py: add_spinorbital_triples_to_pspace"]}
{"id": "C18", "title": "Moment-based selection of triples", "statement": "The buffered selection keeps only triples outside the P space, each at most once and with its own moment value. It returns the num_add largest moments when the stream of candidates of one spin case fits in the buffer; in general it does not, because a candidate arriving at a full buffer is discarded even if it is the largest one, and because the acceptance threshold is taken from an unsorted buffer at the start of a spin case.", "quantifier": "all candidate streams, buffer factors and num_add", "why_tests_cant": "Ranges over all streams; failing streams need a full buffer.", "anchors": ["ccpy/lib/fortran/ccp3_adaptive_loops.f90", "ccpy/moments/ccp3.py: calc_ccp3_2ba_with_selection"]}
{"id": "C19", "title": "Merge argsort", "statement": "The Fortran argsort returns a permutation of 1..n that sorts its integer argument in ascending order; the real-valued descending variant returns a permutation sorting in descending order.", "quantifier": "all arrays of all lengths", "why_tests_cant": "Ranges over all arrays.", "anchors": ["ccpy/lib/fortran/ccp3_adaptive_loops.f90: argsort, argsort_r8_descend"]}
{"id": "C20", "title": "Index table and block lookup of P-space triples", "statement": "Each index table numbers its ordered index tuples 1..n bijectively with n the count given by the code's formula, and after sorting a P-space list by table entry the recorded start/end positions delimit exactly the excitations (with their amplitudes) having that entry. The exception is the three-index sort of a list with a single excitation, for which no block is recorded and the excitation is not found.", "quantifier": "all orbital sizes, all P-space lists", "why_tests_cant": "Unit tests fix a handful of molecules; the claim has to hold for all lists; the suite has no P space with a single triple.", "anchors": ["ccpy/lib/fortran/ccp3_adaptive_loops.f90: get_index_table, sort3", "ccpy/lib/fortran/ccsdt_p_loops.f90: get_index_table, sort4"]}
{"id": "C21", "title": "Union of P spaces", "statement": "Overlapping two P-space lists returns the union of their excitations without duplicates in lexicographic order. The placeholder row of an empty P space is treated as an excitation: united with a non-empty P space it comes first and makes the Q-space routine ignore the whole union.", "quantifier": "all pairs of lists", "why_tests_cant": "Ranges over all lists.", "anchors": ["ccpy/utilities/pspace.py: overlap_p_spaces"]}
{"id": "C22", "title": "Convergence contract of the amplitude solver", "statement": "If the coupled-cluster Jacobi solver reports convergence, then the residual norm and the energy change of the final iteration are both below their tolerances and the number of amplitude updates does not exceed maximum_iterations; if it does not report convergence it performed exactly maximum_iterations updates.", "quantifier": "all update functions, initial amplitudes, tolerances and iteration limits", "why_tests_cant": "Quantifies over every run.", "anchors": ["ccpy/drivers/solvers.py: cc_jacobi"]}
{"id": "C23", "title": "Returned energy belongs to returned amplitudes", "statement": "When the Jacobi solver converges the returned energy is the energy of the returned amplitudes. When it stops unconverged with DIIS active the returned amplitudes may be extrapolated after the energy was computed, so the pair is inconsistent; without DIIS it is always consistent (for at least one iteration).", "quantifier": "all runs", "why_tests_cant": "Unconverged runs with extrapolation on the last step are not in the suite.", "anchors": ["ccpy/drivers/solvers.py: cc_jacobi"]}
{"id": "C24", "title": "DIIS history window", "statement": "At every extrapolation the DIIS storage holds exactly the last diis_size (amplitude, residual) pairs produced by the updates, each pair in one slot, and no extrapolation happens before diis_size pairs have been stored.", "quantifier": "all run lengths, all diis sizes", "why_tests_cant": "Ranges over histories.", "anchors": ["ccpy/drivers/diis.py: DIIS.push", "ccpy/drivers/solvers.py: cc_jacobi"]}
{"id": "C25", "title": "DIIS extrapolation solves the constrained least-squares problem", "statement": "If no pivot vanishes, the elimination returns a solution of the bordered linear system; hence the extrapolation coefficients sum to one, extrapolation fixes a vector stored in every slot, and the extrapolated residual has minimal norm among all combinations with coefficients summing to one.", "quantifier": "all real matrices with non-zero pivots of any size; all stored vectors", "why_tests_cant": "Ranges over all matrices.", "anchors": ["ccpy/drivers/diis.py: DIIS.solve_gauss, DIIS.extrapolate"]}
{"id": "C26", "title": "Davidson subspace bookkeeping", "statement": "In the Davidson eigensolver the subspace size never exceeds its maximum, every iteration's interaction matrix equals the Gram matrix of basis and sigma vectors, and a root is reported converged only if residual and energy change are both below tolerance.", "quantifier": "all runs, all matrix-vector products, all subspace limits", "why_tests_cant": "Ranges over histories including restarts.", "anchors": ["ccpy/drivers/solvers.py: eomcc_davidson"]}
{"id": "C27", "title": "Block Davidson storage", "statement": "The block Davidson solver allocates nroot*maximum_iterations vectors; a run in which no root converges needs nroot more, so it fails with an index error rather than returning unconverged roots.", "quantifier": "all nroot and maximum_iterations", "why_tests_cant": "Needs a non-converging run.", "anchors": ["ccpy/drivers/solvers.py: eomcc_block_davidson"]}
{"id": "C28", "title": "Gram-Schmidt orthonormalisation", "statement": "Orthogonalising a vector against an orthonormal set yields a vector orthogonal to all of them with the same span; normalised columns come out orthonormal.", "quantifier": "all vectors over the reals", "why_tests_cant": "Ranges over all inputs.", "anchors": ["ccpy/utilities/utilities.py: gramschmidt"]}
{"id": "C29", "title": "Pivoted Cholesky decomposition", "statement": "At every step of the pivoted Cholesky decomposition of a symmetric matrix the tracked diagonal equals the diagonal of the matrix minus the product of the vectors found so far, and rows used as pivots are reproduced exactly. For a positive semidefinite matrix and nonnegative tolerance the routine never produces NaN, and unless the rank limit was hit every entry of the error is bounded by the tolerance. The same bound holds for the decomposition of the atomic-orbital integrals, whose shell look-up and block diagonals select the right integrals, but as it stands that routine raises a TypeError in a message on every call, and its buffer needs one row more than the rank.", "quantifier": "all matrices, sizes, tolerances, shell structures, rank limits", "why_tests_cant": "statements about every positive semidefinite matrix and every pivot history", "anchors": ["ccpy/cholesky/cholesky.py: pivoted_chol", "ccpy/cholesky/cholesky.py: cholesky_eri_from_pyscf"]}
{"id": "C30", "title": "FCIDUMP two-electron integrals get all eight symmetric images", "statement": "After reading an FCIDUMP file, the electron-repulsion array is invariant under the eight permutations of real integrals and each listed value is stored at its chemist-notation positions translated to physicist order, whatever representative of each class the file lists.", "quantifier": "all files (sequences of lines) without contradicting entries", "why_tests_cant": "Ranges over all files.", "anchors": ["ccpy/interfaces/fcidump_tools.py"]}
{"id": "C31", "title": "FCIDUMP sizing and orbital-energy lines", "statement": "Reading a file with deleted orbitals allocates an array too small by twice ndelete, and orbital-energy lines (value p 0 0 0) overwrite the last column of the one-electron matrix.", "quantifier": "all ndelete>0; all files with orbital-energy lines", "why_tests_cant": "No test deletes orbitals or has such lines.", "anchors": ["ccpy/interfaces/fcidump_tools.py"]}
{"id": "C32", "title": "Hartree-Fock energy and Fock matrix", "statement": "The reference energy computed from bare integrals equals half the sum of one-electron and Fock diagonal elements over occupied spin orbitals, for any integrals; equals the energy from the unsorted and from the sorted Hamiltonian; and splits into the frozen-core energy and the contribution of the correlated electrons. The G matrix is the part of the Fock matrix due to the correlated occupied orbitals, and cannot be built from a Cholesky Hamiltonian.", "quantifier": "all integrals and occupations", "why_tests_cant": "Unit tests fix a handful of molecules; the claim has to hold for all integrals.", "anchors": ["ccpy/energy/hf_energy.py", "ccpy/models/integrals.py: build_f"]}
{"id": "C33", "title": "Antisymmetrised integrals and their blocks", "statement": "The same-spin two-body integrals built from any bare integrals are antisymmetric under exchange of ket indices, and of bra indices if the bare integrals are unchanged by exchanging the electrons (also for UHF orbitals); the occupied/unoccupied blocks together contain every element of the full array exactly once at the shifted position.", "quantifier": "all integrals, all orbital sizes, all ranks", "why_tests_cant": "Unit tests fix a handful of molecules; the claim has to hold for all sizes.", "anchors": ["ccpy/models/integrals.py: build_v, SortedIntegral, getHamiltonian, getUHFHamiltonian"]}
{"id": "C34", "title": "Cholesky and dense routes agree", "statement": "If the dense two-body integrals equal the contraction of the Cholesky vectors, the Fock matrix, the Hartree-Fock energy, every two-body block the Cholesky Hamiltonian sets and the four-particle batches built from the vectors equal those built from the dense array; blocks with three or four unoccupied indices are not set.", "quantifier": "all Cholesky vectors", "why_tests_cant": "Unit tests fix a handful of molecules; the claim has to hold for all integrals.", "anchors": ["ccpy/models/integrals.py: getCholeskyHamiltonian, build_f_chol", "ccpy/energy/hf_energy.py: calc_hf_energy_chol", "ccpy/cholesky/cholesky_builders.py"]}
{"id": "C35", "title": "Extrapolation formulas", "statement": "The rational extrapolation returns the exact limit of every energy series with geometric increments; the quadratic and continued-fraction ones need not. The quadratic one returns the bounded root of its quadratic equation. Each has a value exactly when its denominators do not vanish (and its radicand is not negative), so without a triples correction the quadratic one has none; an unknown name gives 0 without an error.", "quantifier": "all energies and series", "why_tests_cant": "Ranges over reals.", "anchors": ["ccpy/extrapolation/goodson_extrapolation.py"]}
{"id": "C36", "title": "Tensor reorder", "statement": "reorder_stripe returns the transposed tensor (axis i of the result is axis perm(i) of the input) for any rank, shape, axis permutation and order of the parallel iterations; reorder_shift returns the transposed window at a given shift; sum_stripe and sum_shift add a multiple of the transposed tensor or window; reorder4 and sum4 do the same for four indices. Nothing outside the result range is written.", "quantifier": "all ranks, shapes, permutations, shifts, values and thread schedules", "why_tests_cant": "Unit tests fix a handful of shapes and one schedule; the claim has to hold for all of them.", "anchors": ["ccpy/lib/fortran/reorder.f90: reorder_stripe, reorder_shift, sum_stripe, sum_shift, reorder4, sum4"]}
{"id": "C37", "title": "Array permutation and its inverse", "statement": "permute_array and inverse_permute_array are mutually inverse for every permutation.", "quantifier": "all permutations", "why_tests_cant": "Ranges over all permutations.", "anchors": ["ccpy/lib/fortran/reorder.f90: permute_array, inverse_permute_array"]}
{"id": "C38", "title": "Binomial coefficients", "statement": "binom_i(m,n) returns the exact binomial coefficient (no intermediate division is inexact) as long as the integers do not overflow.", "quantifier": "all 0<=n<=m", "why_tests_cant": "Ranges over all arguments.", "anchors": ["ccpy/lib/fortran/combinatorics.f90: binom_i"]}
{"id": "C39", "title": "Combination iterator", "statement": "Starting from the first combination and calling next_combination until it reports the end visits every increasing r-subset of 1..n exactly once in lexicographic order.", "quantifier": "all n and r>=1", "why_tests_cant": "Ranges over all n,r.", "anchors": ["ccpy/lib/fortran/combinatorics.f90: next_combination"]}
{"id": "C40", "title": "One-body density: trace, response and spin symmetry", "statement": "The traces of the alpha and beta one-body density matrices equal the numbers of alpha and beta electrons for any T and Lambda amplitudes (CCSD and CCSDT); the CCSD density contracted with any one-body operator is the derivative of the energy Lagrangian with respect to that operator; for a closed shell the alpha and beta densities coincide.", "quantifier": "all amplitude values and dimensions, all one-body perturbations", "why_tests_cant": "Unit tests fix a handful of molecules; the claim has to hold for all amplitudes.", "anchors": ["ccpy/density/rdm1.py: calc_rdm1"]}
{"id": "C41", "title": "Density storage per state pair", "statement": "Computing density matrices for a list of states stores them in a table whose rows are one object: every entry in the column of a listed state then holds the density of the last listed state, so entry [i][i] is not the density of state i.", "quantifier": "all state lists", "why_tests_cant": "Needs more than one state.", "anchors": ["ccpy/drivers/driver.py: Driver.__init__, run_rdm1"]}
{"id": "C42", "title": "Reduced excitation level", "statement": "The reduced excitation level of an EOM state is between 0 and 2 (between 1 and 2 for IP/EA) for every non-zero amplitude vector.", "quantifier": "all amplitude vectors", "why_tests_cant": "Ranges over reals.", "anchors": ["ccpy/energy/cc_energy.py: get_rel, get_rel_ip, get_rel_ea"]}
{"id": "C43", "title": "Biorthogonal overlap in P-space and dense form", "statement": "The left-right overlap with triples stored as P-space lists equals the overlap with the triples scattered into dense antisymmetric tensors and contracted with the permutation prefactors (1/36 and 1/4 for excited states; 1/12, 1/2, 1/4 for electron-attached and ionised ones); vectors of different lengths raise. Ionised states with one-alpha-two-beta-hole excitations are the exception.", "quantifier": "all lists and amplitudes", "why_tests_cant": "Unit tests fix a handful of molecules; the claim has to hold for all P spaces.", "anchors": ["ccpy/energy/cc_energy.py: get_LR, get_LR_eaeom, get_LR_ipeom", "ccpy/utilities/pspace.py / operators conversion: convert_t3_from_pspace, unravel_3p2h_amplitudes, unravel_3h2p_amplitudes"]}
{"id": "C44", "title": "Total-spin matrices of the initial guesses", "statement": "The matrix used to select guesses of a given multiplicity is the matrix of the total-spin operator S^2 in the guess determinants: exactly for singles (closed and open shell; with symmetry, excitations of other irreps zeroed) and for one-hole guesses; for closed shells it annihilates singlet combinations, doubles triplet combinations and has no other eigenvalue. For one-particle, two-particle, two-hole and spin-flip guesses it is right for closed shells (spin flip: on the open-shell block) and off by exactly characterised diagonal terms otherwise.", "quantifier": "all numbers of alpha and beta electrons and of orbitals, all pairs of excitations, all symmetry screens, all active spaces, all vectors", "why_tests_cant": "Tests run a few molecules; a wrong sign or missed term shows up only as a wrong multiplicity for other electron counts.", "anchors": ["ccpy/eom_guess/s2matrix.py:build_s2matrix_cis,build_s2matrix_sfcis,build_s2matrix_1h,build_s2matrix_1p,get_sz2", "ccpy/eom_guess/cis.py:build_s2matrix,get_index_arrays", "ccpy/eom_guess/deacis.py:build_s2matrix_2p", "ccpy/eom_guess/dipcis.py:build_s2matrix_2h"]}
{"id": "C45", "title": "Guess vectors are scattered to the right amplitudes", "statement": "An eigenvector of an active-space guess problem (singles and doubles, 2p-1h, 2h-1p) is spread over the full amplitude blocks in lexicographic order of the active excitations: every entry of the vector is used exactly once, antisymmetric partners get the signed value, amplitudes outside the active space are zero, the number of entries equals the dimension of the matrix, and the index arrays used to build the matrix assign the same positions and signs. For two-particle and two-hole guesses this holds for singlet references and is refuted for open-shell ones. The roots kept per irrep are the first requested number of those with an eigenvalue different from zero, in increasing order.", "quantifier": "all numbers of orbitals and electrons, multiplicities, active-space sizes, symmetry tests, vectors, spectra and numbers of roots", "why_tests_cant": "Tests run a handful of molecules and small active spaces; a wrong offset or sign shows only as a slowly converging or wrong root.", "anchors": ["ccpy/eom_guess/cisd.py: scatter, get_index_arrays, run_diagonalization", "ccpy/eom_guess/eacisd.py: scatter, get_index_arrays", "ccpy/eom_guess/ipcisd.py: scatter, get_index_arrays", "ccpy/eom_guess/deacis.py: scatter, get_index_arrays", "ccpy/eom_guess/dipcis.py: scatter, get_index_arrays"]}
{"id": "C46", "title": "Adaptive increments", "statement": "In the percentage scheme of the adaptive driver the numbers of determinants to add follow the differences of the percentages in units of one per cent of the total, add up to the total minus the starting percentage when the list ends in 100 (and 100 does not occur inside it), and are never negative for a non-decreasing list; with RHF symmetry each is halved and rounded down, losing less than one pair per step; the fixed-growth scheme gives one number per selecting iteration.", "quantifier": "all totals and percentage lists", "why_tests_cant": "Ranges over lists.", "anchors": ["ccpy/drivers/adaptive.py: AdaptDriver.excitation_count"]}
{"id": "C47", "title": "Adaptive loop", "statement": "The adaptive CC(P;Q) loop runs at most nmacro iterations and stops at the first iteration (after the zeroth) whose CC(P;Q) energy changed by less than the tolerance or whose P space reached n_det_max, else at the last; it raises only if a numerical routine does; every CC(P) and Hbar step of every iteration starts from the Hamiltonian the driver was created with and every left and correction step uses it transformed exactly once; the P space of an iteration is exactly what earlier iterations selected and never holds more than the percentage asked for. Not guaranteed: a second run() on the same object starts from the transformed Hamiltonian, and changing maximum_iterations after construction has no effect.", "quantifier": "all energies, selections, options, and points at which a routine raises", "why_tests_cant": "Ranges over histories.", "anchors": ["ccpy/drivers/adaptive.py: AdaptDriver"]}
{"id": "C48", "title": "Driver workflow", "statement": "Over every sequence of driver calls, including calls that raise: linear-response, EOM (except run_eomccp), spin-flip, ionised/attached, left and correction routines other than CCSD(T) only ever receive a similarity-transformed Hamiltonian; CCSD(T) only ever receives the bare one unless a run_hbar was interrupted; once run_hbar has returned, no later routine, run_cc and run_hbar included, sees the bare Hamiltonian again; new EOM vectors have the particle and hole numbers of the method asked for (spin-flip vectors do not: their rank is left over from the previous method) and existing vectors are never resized; RHF symmetry once switched off stays off; after EOM-CC3 no other run_eomcc reaches its solver; cct3 and ccp3 in the two-body approximation remove the V*T3 terms again on every state and call; unknown correction names return silently.", "quantifier": "all call sequences, all points at which a numerical routine may raise", "why_tests_cant": "Ranges over call histories.", "anchors": ["ccpy/drivers/driver.py: Driver"]}
{"id": "C49", "title": "Determinant files as P spaces", "statement": "Reading a CIPSI determinant file returns, for triples and for quadruples and per spin case, exactly the excitations of that rank of the listed determinants, in file order and with repetition, with correct counts per irrep (an empty spin case becomes one row of ones); a walker list yields exactly the index tuples whose spatial orbitals occur in a listed triple with enough walkers. Not guaranteed: the first triple naming an orbital outside the system silently ends the reading, and a walker list also puts triples of other spin cases into the P space.", "quantifier": "all files of determinants, all systems, targets and thresholds", "why_tests_cant": "Ranges over files.", "anchors": ["ccpy/utilities/pspace.py: get_triples_pspace_from_cipsi, get_quadruples_pspace_from_cipsi, get_pspace_from_qmc", "ccpy/utilities/determinants.py"]}
{"id": "C50", "title": "Determinant and excitation objects", "statement": "For any two determinants with the system's numbers of electrons, the excitation between them lists, spin by spin and in increasing order, exactly the orbitals that one has and the other lacks, and its phase is the sign of the corresponding string of creation and annihilation operators. The matrix element of the Hamiltonian between them is the one of the Slater-Condon rules, and the matrix is symmetric, unless there is exactly one electron of some spin, when a matrix element between determinants one orbital apart raises. Converting a determinant to its excitation from the Hartree-Fock determinant and back returns it only for the Hartree-Fock determinant (particle indices are absolute one way, relative the other), and raises for every excitation of a system with other electron numbers than n alpha, n beta or n+1 alpha, n beta. The constructors accept exactly the orbital lists of the right lengths whose (1-based) labels lie above minus the number of orbitals and not above it; labels below 1, which name no orbital, are accepted because the lookup wraps round.", "quantifier": "all systems, pairs of determinants of any excitation degree, integrals", "why_tests_cant": "There are exponentially many pairs of determinants and signs depend on every occupied orbital; the module has no tests.", "anchors": ["ccpy/models/hilbert.py:Determinant", "ccpy/models/hilbert.py:Excitation", "ccpy/models/hilbert.py:slater_eval"]}
{"id": "C51", "title": "Antisymmetry and fixed points of the amplitude update", "statement": "Every doubles update of the CC solver yields same-spin amplitudes antisymmetric in holes and in particles, for any residual intermediate; one CCSD iteration leaves the amplitudes unchanged exactly when every antisymmetrised residual vanishes, and one left-CCSD iteration leaves L unchanged exactly when L solves the left equations for its excitation energy.", "quantifier": "all tensors, sizes, non-zero denominators", "why_tests_cant": "Unit tests fix a handful of molecules; the claim has to hold for all iterations.", "anchors": ["ccpy/lib/fortran/cc_loops2.f90: update_t1a, update_t2a, update_t2b, update_t2c, update_l1a, update_l2a, update_l2b, update_l2c", "ccpy/cc/ccsd.py: update", "ccpy/left/left_ccsd.py: update"]}
{"id": "C52", "title": "Closed-shell shortcut (flag_RHF)", "statement": "For a closed-shell problem (equal numbers of alpha and beta orbitals, spin-symmetric integrals) the flag_RHF shortcut, which computes the alpha blocks only and copies them to beta, is faithful: spin-symmetric amplitudes are a converged CCSD (CCD) solution with the flag exactly when they are one without it; the similarity-transformed Hamiltonian is the same in every block and again spin-symmetric; the right and left EOM-CCSD products of spin-symmetric vectors are the same; every left-CCSD iterate is the same and stays spin-symmetric. The ground-state iterates themselves need not agree: the updates read amplitudes already overwritten in the same sweep, so one unrestricted CCSD iteration can make the alpha and beta singles differ and one restricted CCD iteration can break the exchange symmetry of the opposite-spin doubles.", "quantifier": "all numbers of orbitals, all spin-symmetric integrals, amplitudes and shifts with nonzero denominators, all iterations", "why_tests_cant": "A test compares one molecule at convergence; the claim covers all integrals, every block and every iteration, and a test at convergence cannot see that the iterates differ.", "anchors": ["ccpy/cc/ccd.py: update", " ccpy/cc/ccsd.py: update", " ccpy/hbar/hbar_ccsd.py: build_hbar_ccsd", " ccpy/eomcc/eomccsd.py: HR", " ccpy/left/left_ccsd.py: update, LH"]}
{"id": "C53", "title": "Cluster analysis of a CI wave function", "statement": "Given the CI coefficients of a wave function in intermediate normalisation, cluster analysis returns the amplitudes of the unique cluster operator T whose exponential is that wave function: singles, doubles, triples in all spin cases and the listed quadruples. Doubles and triples are returned only at determinants with a nonzero coefficient; when no doubles amplitude is lost that way the CC energy of the result equals the CI energy, and when one is, the energies can differ. Operators of order above three cannot be requested.", "quantifier": "all orbital spaces, all spin-conserving antisymmetric wave functions, all lists of quadruples", "why_tests_cant": "The formulas contain hundreds of signed products; a test compares a few numbers of one molecule, the claim is an identity for every wave function, and the loss at vanishing coefficients shows only for particular wave functions.", "anchors": ["ccpy/lib/fortran/clusteranalysis.f90: cluster_analysis_t2, cluster_analysis_t3, cluster_analysis_t4", "ccpy/extcorr/external_correction.py: cluster_analyze_ci", "ccpy/energy/cc_energy.py: get_cc_energy, get_ci_energy"]}
{"id": "C54", "title": "Amplitude files of the other program suite", "statement": "Reading state r of a file of excited-state amplitudes returns exactly the amplitudes that were written for that state, for CIS/CCSD/CCSDT-size vectors and whatever the other states are; with the default root number the last state of the file is returned; ground-state files are read correctly for closed shells (block order aa, bb, ab, aaa, bbb, aab, abb, opposite signs) and make the reader raise for every open-shell system with more alpha than beta electrons; a file that is too short raises.", "quantifier": "all orbital counts, amplitude operators, orders 1-3, states and files", "why_tests_cant": "Ranges over all sizes and files; no test reads an open-shell ground-state file or omits the root.", "anchors": ["ccpy/utilities/utilities.py:read_amplitudes_from_jun"]}
{"id": "C55", "title": "Left excited states are biorthonormal; the reported overlap is stale", "statement": "After an excited-state left calculation the stored left vector has overlap exactly one with its right vector; the LR value reported with it belongs to the vector entering the last update (and is 0.0 when the run converges in its first iteration).", "quantifier": "all left update functions, overlap functions, initial vectors, tolerances and iteration limits", "why_tests_cant": "needs all runs and convergence points; a test sees one run", "anchors": ["ccpy/drivers/solvers.py: left_cc_jacobi", "ccpy/drivers/driver.py: run_leftcc"]}
{"id": "C56", "title": "Convergence contract of the nonlinear (CC3-type) eigensolver", "statement": "If the DIIS-accelerated nonlinear eigensolver reports convergence, the returned vector has unit norm, the returned energy is its Rayleigh quotient with the matrix-vector product evaluated at an energy within energy_convergence of it, and the residual at that energy is below amp_convergence.", "quantifier": "all energy-dependent matrix-vector products, update rules, guesses, tolerances", "why_tests_cant": "the product and update are arbitrary functions", "anchors": ["ccpy/drivers/solvers.py: eomcc_nonlinear_diis"]}
{"id": "C57", "title": "Dense 3p2h and 3h2p arrays", "statement": "Unravelling a list of distinct 3p2h (electron attachment) or 3h2p (ionisation) amplitudes gives the antisymmetric array with the listed amplitudes at the listed excitations and zero at all other ordered excitations. The 3h2p abb case violates this: it exchanges the alpha hole with a beta hole, so for every excitation with a non-zero amplitude it either raises an index error or returns an array that is not antisymmetric in the beta holes.", "quantifier": "all orbital counts, all lists of distinct ordered excitations, all amplitudes", "why_tests_cant": "A test on a fixed closed-shell molecule sees neither the index error nor the sign flip when alpha and beta hole coincide; the claim is about every list.", "anchors": ["ccpy/utilities/utilities.py: unravel_3p2h_amplitudes, unravel_3h2p_amplitudes"]}
{"id": "C58", "title": "Reordering P-space amplitudes", "statement": "reorder_triples_amplitudes rearranges amplitudes together with their excitations, losing and duplicating none; when both lists hold the same distinct excitations the result is in the order of the target list and every excitation keeps its amplitude.", "quantifier": "all excitation lists and amplitudes", "why_tests_cant": "The in-place swap loop must be right for every pair of orderings.", "anchors": ["ccpy/lib/fortran/reorder.f90: reorder_amplitudes", "ccpy/utilities/utilities.py: reorder_triples_amplitudes"]}
{"id": "C59", "title": "Dumped integral files read back", "statement": "Writing one-body integrals to onebody.inp and reading them back gives the rounded lower triangle, mirrored; writing two-body integrals to twobody.inp and reading them back gives the rounded array with its middle indices exchanged, because the writer uses the array's own index order while the reader assumes chemists' notation, so the physicists'-order array dumped by the natural-orbital code is not the one that is read back.", "quantifier": "all arrays and dimensions", "why_tests_cant": "Ranges over all arrays; no test reads a dumped file back.", "anchors": ["ccpy/utilities/dumping.py: dumpIntegralstoPGFiles", "ccpy/interfaces/gamess_tools.py: load_onebody_integrals, load_twobody_integrals"]}
{"id": "C60", "title": "Re-normal-ordering between reference determinants", "statement": "The routine that moves the Hamiltonian from one reference determinant to another raises on every call, whatever the occupations, because indexing with lists yields three axes where the contraction names four; the multireference drivers that call it cannot run.", "quantifier": "all occupation lists", "why_tests_cant": "No test calls it.", "anchors": ["ccpy/mrcc/normal_order.py: shift_normal_order"]}
{"id": "C61", "title": "Left and right EOMCCSD use one operator", "statement": "For every similarity-transformed Hamiltonian, every set of cluster amplitudes and every pair of left and right vectors, the left sigma routine is the adjoint of the right sigma routine in the determinant inner product; consequently left and right eigenvectors of different eigenvalues are orthogonal.", "quantifier": "all sizes of the four orbital spaces, all antisymmetric Hamiltonian blocks, all antisymmetric T, L and R", "why_tests_cant": "a test compares a few eigenvalues of one molecule; a wrong term that vanishes by symmetry there goes unnoticed", "anchors": ["ccpy/eomcc/eomccsd.py HR", "ccpy/left/left_ccsd.py LH_fun", "ccpy/left/left_cc_intermediates.py build_left_ccsd_intermediates"]}
{"id": "C62", "title": "CCSD amplitude equations, HBar, EOM and Lambda are mutually consistent", "statement": "The right EOMCCSD sigma routine, fed with the HBar built from the converged or unconverged amplitudes T, returns exactly the directional derivative of the CCSD residual computed by the solver (the Jacobian), get_r0's numerator is the directional derivative of the correlation energy, and the left CCSD total that the Lambda solver drives to zero is the gradient of the Lagrangian E(T) + <L, residual(T)>; hence a converged Lambda vector makes the Lagrangian stationary in every direction of T.", "quantifier": "all orbital-space sizes, all antisymmetric Hamiltonians, amplitudes T, left vectors L and directions R", "why_tests_cant": "Tests compare energies of a few molecules to 8 digits; a wrong coefficient in a term that vanishes for closed shells, a canonical Fock matrix or small molecules is invisible, and no test compares the four separately hand-optimised routines with each other.", "anchors": ["ccpy/cc/ccsd.py: update_t1a, update_t1b, update_t2a, update_t2b, update_t2c", "ccpy/hbar/hbar_ccsd.py: build_hbar_ccsd", "ccpy/eomcc/eomccsd.py: HR", "ccpy/left/left_ccsd.py: update, LH", "ccpy/energy/cc_energy.py: get_cc_energy, get_r0"]}
{"id": "C63", "title": "CCSD solves the projected Schroedinger equation", "statement": "For every set of molecular integrals, every number of frozen, occupied and unoccupied orbitals of either spin and every set of antisymmetric amplitudes, the correlation energy the program reports plus the reference energy is the reference component of H exp(T)|ref> in second quantisation; the CCSD residual arrays are its components along the singly and doubly excited determinants with (H - E) in place of H (less products of lower ones); and one CCSD iteration leaves the amplitudes unchanged exactly when exp(T)|ref> solves the Schroedinger equation on the reference and all singly and doubly excited determinants, with the total energy of the program as eigenvalue.", "quantifier": "all integrals with the particle-exchange symmetry, all orbital counts, all antisymmetric T1 and T2, all level shifts with nonzero denominators, every determinant within two electron moves of the reference", "why_tests_cant": "The equations are some hundred tensor contractions in five spin cases; a wrong sign or missing permutation in one of them can be invisible for symmetric molecules, and no test can compare with the operator definition for every Hamiltonian.", "anchors": ["ccpy/cc/ccsd.py:update", "ccpy/energy/cc_energy.py:get_cc_energy", "ccpy/models/integrals.py:getHamiltonian", "ccpy/energy/hf_energy.py:calc_hf_energy", "ccpy/utilities/updates/cc_loops2.f90"]}
{"id": "C64", "title": "EOMCCSD roots solve the projected Schroedinger equation", "statement": "For every converged CCSD ground state and every excitation vector R, the EOMCCSD right sigma vector computed from the program's similarity-transformed Hamiltonian equals omega R exactly when the state (r0 + R) exp(T)|reference>, with the r0 the program reports, satisfies the Schroedinger equation of the electronic Hamiltonian with total energy E(CCSD) + omega on the reference and on every singly and doubly excited determinant. For any R, eigenvector or not, the sigma vector gives the components of (H - E) R exp(T)|reference> on those determinants.", "quantifier": "all molecular integrals, numbers of frozen, occupied and unoccupied orbitals of either spin, converged cluster amplitudes, excitation vectors, excitation energies", "why_tests_cant": "a wrong coefficient or sign in one of some hundred contractions, in HBar or in sigma, changes the spectrum for some molecule; tests compare a few literature values", "anchors": ["ccpy/eomcc/eomccsd.py:HR", "ccpy/hbar/hbar_ccsd.py:build_hbar_ccsd", "ccpy/energy/cc_energy.py:get_r0", "ccpy/cc/ccsd.py:update"]}
{"id": "C65", "title": "Reading a CI wave function with the right signs", "statement": "parse_ci_wavefunction stores, for every excitation through quadruples, the coefficient of the determinant divided by that of the reference with the phase of second quantisation (particle creators in increasing order, alpha first, times hole annihilators in the matching order); the arrays are antisymmetric and zero where the file has nothing, quadruples are listed once each, and the counts are the numbers of determinants per spin case. True for every closed-shell reference. With unpaired electrons every stored value carries the extra sign (-1)^(number of reference spin-orbitals below each orbital of the excitation + number of betas): for one unpaired electron all singles and triples are negated, for more the signs within one array disagree. A file without the reference raises; a determinant with an unknown orbital silently ends the reading.", "quantifier": "every system, every list of distinct sorted determinants with any coefficients, every excitation", "why_tests_cant": "the sign depends on how the orbitals of an excitation interleave with the reference, so tests on one molecule and one multiplicity cannot establish it", "anchors": ["ccpy/extcorr/external_correction.py:parse_ci_wavefunction", "ccpy/extcorr/external_correction.py:insert_ci_amplitude", "ccpy/utilities/determinants.py:calculate_permutation_parity"]}
{"id": "C66", "title": "IP-EOMCCSD roots solve the projected Schroedinger equation", "statement": "For every converged CCSD ground state and every vector R of the IP-EOMCCSD(2h-1p) method, the sigma vector equals omega R exactly when R exp(T)|reference> satisfies the Schroedinger equation with total energy E(CCSD) + omega on every determinant with one alpha electron removed and at most one further electron moved; for any R the sigma vector gives the components of (H - E) R exp(T)|reference>, and it is antisymmetric.", "quantifier": "all molecular integrals, numbers of frozen, occupied and unoccupied orbitals of either spin, converged cluster amplitudes, vectors R, energies omega", "why_tests_cant": "a wrong coefficient, sign or permutation in one of the contractions shifts the roots of some molecule; tests compare a few literature values", "anchors": ["ccpy/eomcc/ipeom2.py:HR", "ccpy/hbar/hbar_ccsd.py:build_hbar_ccsd", "ccpy/models/operators.py:FockOperator"]}
{"id": "C67", "title": "EA-EOMCCSD roots solve the projected Schroedinger equation", "statement": "The same for EA-EOMCCSD(2p-1h): sigma = omega R exactly when R exp(T)|reference> solves the Schroedinger equation with energy E(CCSD) + omega on every determinant with one alpha electron attached and at most one further electron moved.", "quantifier": "all molecular integrals, numbers of frozen, occupied and unoccupied orbitals of either spin, converged cluster amplitudes, vectors R, energies omega", "why_tests_cant": "a wrong coefficient, sign or permutation in one of the contractions shifts the roots of some molecule; tests compare a few literature values", "anchors": ["ccpy/eomcc/eaeom2.py:HR", "ccpy/hbar/hbar_ccsd.py:build_hbar_ccsd", "ccpy/models/operators.py:FockOperator"]}
{"id": "C68", "title": "Spin-flip EOMCCSD roots solve the projected Schroedinger equation", "statement": "The same for SF-EOMCCSD: sigma = omega R exactly when R exp(T)|reference> solves the Schroedinger equation with energy E(CCSD) + omega on every determinant with one alpha electron turned into a beta electron and at most one further electron moved.", "quantifier": "all molecular integrals, numbers of frozen, occupied and unoccupied orbitals of either spin, converged cluster amplitudes, vectors R, energies omega", "why_tests_cant": "a wrong coefficient, sign or permutation in one of the contractions shifts the roots of some molecule; tests compare a few literature values", "anchors": ["ccpy/eomcc/sfeomccsd.py:HR", "ccpy/hbar/hbar_ccsd.py:build_hbar_ccsd", "ccpy/models/operators.py:SpinFlipOperator"]}
{"id": "C69", "title": "DIP-EOMCCSD roots solve the projected Schroedinger equation", "statement": "The same for DIP-EOMCCSD(3h-1p): sigma = omega R exactly when R exp(T)|reference> solves the Schroedinger equation with energy E(CCSD) + omega on every determinant with one alpha and one beta electron removed and at most one further electron moved.", "quantifier": "all molecular integrals, numbers of frozen, occupied and unoccupied orbitals of either spin, converged cluster amplitudes, vectors R, energies omega", "why_tests_cant": "a wrong coefficient, sign or permutation in one of the contractions shifts the roots of some molecule; tests compare a few literature values", "anchors": ["ccpy/eomcc/dipeom3.py:HR", "ccpy/hbar/hbar_ccsd.py:build_hbar_ccsd", "ccpy/models/operators.py:FockOperator"]}
{"id": "C70", "title": "DEA-EOMCCSD roots solve the projected Schroedinger equation", "statement": "The same for DEA-EOMCCSD(2p) and DEA-EOMCCSD(3p-1h): sigma = omega R exactly when R exp(T)|reference> solves the Schroedinger equation with energy E(CCSD) + omega on every determinant with one alpha and one beta electron attached (and, for 3p-1h, at most one further electron moved).", "quantifier": "all molecular integrals, numbers of frozen, occupied and unoccupied orbitals of either spin, converged cluster amplitudes, vectors R, energies omega", "why_tests_cant": "a wrong coefficient, sign or permutation in one of the contractions shifts the roots of some molecule; tests compare a few literature values", "anchors": ["ccpy/eomcc/deaeom2.py:HR", "ccpy/eomcc/deaeom3.py:HR", "ccpy/hbar/hbar_ccsd.py:build_hbar_ccsd"]}
{"id": "C71", "title": "TEA-EOMCCSD roots solve the projected Schroedinger equation", "statement": "The same for TEA-EOMCCSD(3p): sigma = omega R exactly when R exp(T)|reference> solves the Schroedinger equation with energy E(CCSD) + omega on every determinant with two alpha and one beta electron attached.", "quantifier": "all molecular integrals, numbers of frozen, occupied and unoccupied orbitals of either spin, converged cluster amplitudes, vectors R, energies omega", "why_tests_cant": "a wrong coefficient, sign or permutation in one of the contractions shifts the roots of some molecule; tests compare a few literature values", "anchors": ["ccpy/eomcc/teaeom2.py:HR", "ccpy/hbar/hbar_ccsd.py:build_hbar_ccsd"]}
{"id": "C72", "title": "Left IP and EA vectors are adjoint to the right ones", "statement": "For every Hamiltonian with the exchange symmetry and in particular the similarity-transformed one of CCSD, the left IP and EA sigma vectors are the adjoints of the right ones in the scalar product of independent amplitudes; so both sides have the same roots and left and right eigenvectors of different roots are orthogonal.", "quantifier": "all orbital counts, Hamiltonians, cluster amplitudes, left and right vectors", "why_tests_cant": "adjointness relates two independently written sets of contractions for all arguments", "anchors": ["ccpy/left/left_ipeom2.py:LH_fun", "ccpy/left/left_eaeom2.py:LH_fun", "ccpy/eomcc/ipeom2.py:HR", "ccpy/eomcc/eaeom2.py:HR"]}
{"id": "C73", "title": "Single excitations act through dressed integrals", "statement": "For every Hamiltonian and amplitudes T, exp(-T1) H exp(T1) is the Hamiltonian with integrals dressed by T1; the total CCSD energy, the solutions of the CCSD equations and every block build_hbar_ccsd writes are the same for (H, T) and for (dressed H, T without T1).", "quantifier": "all integrals with the exchange symmetry, orbital counts, antisymmetric amplitudes, all indices of all blocks", "why_tests_cant": "relates the polynomial dependence on T1 of about forty arrays, for all sizes and values", "anchors": ["ccpy/hbar/hbar_ccsd.py:build_hbar_ccsd", "ccpy/energy/cc_energy.py:get_cc_energy", "ccpy/cc/ccsd.py:update"]}
{"id": "C74", "title": "IP-EOMCC(3h2p) roots solve the projected Schroedinger equation", "statement": "For converged CCSD amplitudes the vector R is an eigenvector of the program's matrix, sigma = omega R, exactly when R exp(T)|reference> solves the Schroedinger equation with energy E(CCSD) + omega on every determinant with one alpha electron less than the reference in which at most three reference spin-orbitals are empty.", "quantifier": "all molecular integrals, numbers of frozen, occupied and unoccupied orbitals of either spin, converged cluster amplitudes, vectors R, energies omega", "why_tests_cant": "some seventy contractions with three-body intermediates; a wrong coefficient, sign or permutation in one of them shifts the roots of some molecule, while tests compare a few literature values", "anchors": ["ccpy/eomcc/ipeom3.py:HR", "ccpy/eomcc/ipeom3_intermediates.py:get_ipeom3_intermediates", "ccpy/hbar/hbar_ccsd.py:build_hbar_ccsd"]}
{"id": "C75", "title": "EA-EOMCC(3p2h) roots solve the projected Schroedinger equation", "statement": "The same for EA-EOMCC(3p-2h): sigma = omega R exactly when R exp(T)|reference> solves the Schroedinger equation with energy E(CCSD) + omega on every determinant with one alpha electron more than the reference in which at most two reference spin-orbitals are empty.", "quantifier": "all molecular integrals, numbers of frozen, occupied and unoccupied orbitals of either spin, converged cluster amplitudes, vectors R, energies omega", "why_tests_cant": "some seventy contractions with three-body intermediates; a wrong coefficient, sign or permutation in one of them shifts the roots of some molecule, while tests compare a few literature values", "anchors": ["ccpy/eomcc/eaeom3.py:HR", "ccpy/eomcc/eaeom3_intermediates.py:get_eaeom3_intermediates", "ccpy/hbar/hbar_ccsd.py:build_hbar_ccsd"]}
{"id": "C76", "title": "DIP-EOMCC(4h2p) roots solve the projected Schroedinger equation", "statement": "The same for DIP-EOMCC(4h-2p): determinants with one alpha and one beta electron less, at most four reference spin-orbitals empty.", "quantifier": "all molecular integrals, numbers of frozen, occupied and unoccupied orbitals of either spin, converged cluster amplitudes, vectors R, energies omega", "why_tests_cant": "some seventy contractions with three-body intermediates; a wrong coefficient, sign or permutation in one of them shifts the roots of some molecule, while tests compare a few literature values", "anchors": ["ccpy/eomcc/dipeom4.py:HR", "ccpy/eomcc/dipeom4_intermediates.py:get_dipeom4_intermediates", "ccpy/hbar/hbar_ccsd.py:build_hbar_ccsd"]}
{"id": "C77", "title": "DEA-EOMCC(4p2h) roots solve the projected Schroedinger equation", "statement": "The same for DEA-EOMCC(4p-2h): determinants with one alpha and one beta electron more, at most two reference spin-orbitals empty.", "quantifier": "all molecular integrals, numbers of frozen, occupied and unoccupied orbitals of either spin, converged cluster amplitudes, vectors R, energies omega", "why_tests_cant": "some seventy contractions with three-body intermediates; a wrong coefficient, sign or permutation in one of them shifts the roots of some molecule, while tests compare a few literature values", "anchors": ["ccpy/eomcc/deaeom4.py:HR", "ccpy/eomcc/deaeom4_intermediates.py:get_deaeom4_intermediates", "ccpy/hbar/hbar_ccsd.py:build_hbar_ccsd"]}
{"id": "C78", "title": "Spin-flip EOMCC with triples: which terms of the sigma vector are right", "statement": "The singles and doubles parts of the SF-EOMCC(2,3) sigma vector are those of the Schroedinger equation. The triples parts are not: the hole-particle attraction between the spin-flipped particle and the alpha holes enters with 2/12 instead of 3/12, six terms with the one-body part of the Hamiltonian are counted twice and four two-body terms are missing. With these eleven terms corrected the roots are exactly the solutions of the Schroedinger equation with energy E(CCSD) + omega on the determinants with one alpha electron less and one beta electron more than the reference and at most three empty reference spin-orbitals; as the program stands, it has roots that are not.", "quantifier": "all molecular integrals, numbers of occupied and unoccupied orbitals of either spin, converged cluster amplitudes, vectors R, energies omega; for the program as it stands, a molecule and a root", "why_tests_cant": "no reference value in the tests isolates these terms; the doubles part of the spectrum looks right, and only a derivation for all integrals shows which terms are wrong and that no other is", "anchors": ["ccpy/eomcc/sfeomcc23.py:HR", "ccpy/eomcc/sfeomcc23.py:build_HR_3B", "ccpy/eomcc/sfeomcc23_intermediates.py:get_sfeomcc23_intermediates"]}
{"id": "C79", "title": "CCSDT solves the Schroedinger equation projected on singles, doubles and triples", "statement": "For any molecule, basis, frozen core, spin multiplicity and level shift, amplitudes that a full CCSDT iteration leaves unchanged are exactly those for which exp(T1+T2+T3)|ref> satisfies (H-E)psi = 0 on the reference and on every determinant with up to three excited electrons, where H is the second-quantised electronic Hamiltonian of the molecule; the reported energy (reference plus correlation) is the expectation <ref|H exp(T)|ref>. The update loops add the antisymmetrised right-hand side over the orbital-energy denominator to every amplitude in range and touch nothing else.", "quantifier": "all one- and two-electron integrals (with the exchange symmetry of electron repulsion), numbers of occupied and unoccupied alpha and beta orbitals, frozen core, antisymmetric amplitudes T1, T2, T3, level shifts with nonzero denominators, index values", "why_tests_cant": "tests compare a few total energies to reference values; a wrong contraction that vanishes by symmetry in the tested molecules, a wrong open-shell spin block, or a loop that writes a wrong permutation for some index order goes unnoticed", "anchors": ["ccpy/cc/ccsdt.py:update", "ccpy/cc/ccsdt.py:update_t3a", "ccpy/cc/ccsdt.py:update_t3b", "ccpy/cc/ccsdt.py:update_t3c", "ccpy/cc/ccsdt.py:update_t3d", "ccpy/lib/fortran/cc_loops2.f90:update_t3a_v2"]}
{"id": "C80", "title": "CR-CC(2,3) corrections are moment expansions over all triply excited determinants", "statement": "For any molecule and any CCSD amplitudes T and left amplitudes L, the CR-CC(2,3) variant-D energy that the program reports equals the CCSD energy expression E plus the sum, over every triply excited determinant K of every spin type counted once, of <ref|(1+L1+L2) Hbar|K><K|Hbar|ref>/(E - <K|Hbar|K>), where Hbar = exp(-T1-T2) H exp(T1+T2) and H is the second-quantised electronic Hamiltonian; the moments, left amplitudes and denominators are each the stated matrix elements. Variants A and B use the same numerators over differences of diagonal Fock elements and of diagonal one-body elements of Hbar.", "quantifier": "all numbers of orbitals and electrons of each spin, all integrals with the electron-exchange symmetry, all antisymmetric amplitudes T and L", "why_tests_cant": "the formulas contain some two hundred contractions in Fortran and numpy with hand-written permutations, tested only on total energies of a few molecules; a test cannot show that the sums are the matrix elements for every size and amplitude", "anchors": ["ccpy/moments/crcc23.py:calc_crcc23", "ccpy/lib/fortran/crcc_loops.f90:crcc23A_opt..crcc23D_opt", "ccpy/hbar/diagonal.py", "ccpy/hbar/hbar_ccsd.py:build_hbar_ccsd"]}
{"id": "C81", "title": "CCSD(T) energies are E(CCSD) plus the exact perturbative triples sum", "statement": "calc_ccsdpt returns the CCSD energy plus the sum over all triply excited determinants K of <ref|(T1+T2)^+ H|K> <K|[H,T2]|ref> / (e_i+e_j+e_k-e_a-e_b-e_c), H the second-quantised electronic Hamiltonian and e the diagonal of its Fock operator. With a closed-shell Hamiltonian and singlet amplitudes use_RHF returns the same energy.", "quantifier": "every number of occupied and unoccupied orbitals of each spin, all one- and two-electron integrals of real orbitals, all antisymmetric T1, T2", "why_tests_cant": "The tests compare a few molecules' energies in eight digits; a term that vanishes for Hartree-Fock orbitals (the Fock occupied-unoccupied block) or for closed shells is never exercised", "anchors": ["ccpy/moments/crcc23.py:calc_ccsdpt", "ccpy/lib/fortran/ccsdpt_loops.f90:ccsdpta_opt"]}
{"id": "C82", "title": "CR-EOMCC(2,3) is the exact moment correction", "statement": "calc_creomcc23 returns, for every excited state, E + omega plus the sum over all triply excited determinants K of <ref|L Hbar|K> <K|Hbar (r0 + R)|ref> / (E + omega - <K|Hbar|K>) (variant D), or the same numerators over omega plus diagonal Fock or one-body Hbar differences (variants A, B), where Hbar = exp(-T) H exp(T), T solves the CCSD equations and R, L are the EOMCCSD operators; the printed ddelta is the same sum without r0; use_RHF changes nothing for a closed shell", "quantifier": "every number of occupied and unoccupied orbitals of each spin, every Hamiltonian with exchange-symmetric repulsion, every converged CCSD T, every antisymmetric R and L, every omega and r0", "why_tests_cant": "tests compare a few molecules with stored energies computed by the same group; they cannot show that each of the hundreds of contractions (including the intermediates of Hbar times R) is the operator product for all integrals and amplitudes", "anchors": ["ccpy/moments/creomcc23.py:calc_creomcc23", "ccpy/lib/fortran/crcc_loops.f90:creomcc23A_opt,creomcc23B_opt,creomcc23C_opt,creomcc23D_opt", "ccpy/moments/creomcc23.py:get_eomcc23_intermediates"]}
{"id": "C83", "title": "CCSD with Cholesky vectors solves the dense equations", "statement": "For every set of one-electron integrals, Cholesky vectors L, orbital counts (with frozen core) and level shift: run_cc with method ccsd_chol converges (an iteration leaves the amplitudes unchanged) at exactly the amplitudes at which ccsd converges for the integrals <pq|rs> = sum_x L[x,p,r] L[x,q,s], with the same residuals and energy; these are the amplitudes for which exp(T)|reference> solves the Schroedinger equation projected on singles and doubles. The same with flag_RHF for closed shells and spin-symmetric amplitudes.", "quantifier": "all orbital counts, all numbers of vectors, all real integrals, vectors and antisymmetric amplitudes", "why_tests_cant": "a test compares converged energies of a few molecules; the factorised contractions over ordered virtual pairs must agree term by term for every input, including those that vanish by symmetry in molecules", "anchors": ["ccpy/cc/ccsd_chol.py:update", "ccpy/cc/ccsd_chol.py:update_t2a", "ccpy/cc/ccsd_chol.py:update_t2b", "ccpy/cc/ccsd_chol.py:update_t2c", "ccpy/lib/fortran/vvvv_contraction.f90:vvvv_t2_sym", "ccpy/lib/fortran/vvvv_contraction.f90:vvvv_t2", "ccpy/models/integrals.py:getCholeskyHamiltonian"]}
{"id": "C84", "title": "Excited states with Cholesky vectors use the dense similarity-transformed Hamiltonian", "statement": "After a Cholesky CCSD run, the similarity-transformed Hamiltonian blocks that are built from the Cholesky vectors equal the blocks the dense routine would build from the integrals the vectors represent, and the right and left EOMCCSD sigma vectors computed from the dressed vectors (without ever forming the four-virtual block) equal the dense ones; an eigenpair reported with Cholesky vectors is therefore an excited state of the same Hamiltonian.", "quantifier": "all Cholesky vectors, one-body integrals, occupations, frozen cores, cluster amplitudes and trial vectors with the antisymmetry of a cluster operator; closed-shell variants for spin-symmetric amplitudes", "why_tests_cant": "Tests compare converged energies of single molecules; a term that vanishes for a symmetric reference, or a triangular sum that misses part of the four-virtual block, shows only for other vectors and amplitudes.", "anchors": ["ccpy/hbar/hbar_ccsd_chol.py:build_hbar_ccsd_chol", "ccpy/eomcc/eomccsd_chol.py:HR", "ccpy/eomcc/eomccsd_intermediates.py:get_eomccsd_chol_intermediates", "ccpy/left/left_ccsd_chol.py:LH_fun", "ccpy/left/left_cc_intermediates.py:build_left_ccsd_chol_intermediates"]}
{"id": "C85", "title": "EOMCCSDT excited states solve the Schroedinger equation projected on singles, doubles and triples", "statement": "For converged CCSDT amplitudes, the vector the EOMCCSDT sigma routine returns for R, computed with the similarity-transformed Hamiltonian of the CCSDT routine, is the derivative of the CCSDT equations along R. Consequently R is an eigenvector with excitation energy w, and the reference weight r0 the program reports satisfies its equation, exactly when (r0 + R1 + R2 + R3) exp(T1+T2+T3)|ref> satisfies the Schroedinger equation of the molecule with energy E_CCSDT + w on the reference and on every determinant with up to three excited electrons. The returned vector is antisymmetric.", "quantifier": "all one- and two-electron integrals (with the exchange symmetry of electron repulsion), numbers of occupied and unoccupied alpha and beta orbitals, frozen core, antisymmetric amplitudes T1, T2, T3 and R1, R2, R3, excitation energies w", "why_tests_cant": "Tests compare a few excitation energies; a wrong contraction that vanishes by point-group or spin symmetry in the tested molecules, or a wrong open-shell spin block, goes unnoticed.", "anchors": ["ccpy/eomcc/eomccsdt.py:HR", "ccpy/eomcc/eomccsdt.py:build_HR_3B", "ccpy/hbar/hbar_ccsdt.py:build_hbar_ccsdt", "ccpy/energy/cc_energy.py:get_r0"]}
{"id": "C86", "title": "CC2 solves the CC2 equations; its closed-shell and excited-state variants do not", "statement": "CC2 amplitudes that one iteration leaves unchanged are exactly the solutions of the CC2 equations: the projections of exp(-T1-T2) H exp(T1+T2)|ref> on all single excitations and of (exp(-T1) H exp(T1) + exp(-T2) F exp(T2))|ref> on all double excitations vanish, F being the Fock operator. With the closed-shell flag this fails whenever <ab||ef> contracted with two singles is not zero, because that term is added twice to a shared array. The EOMCC2 sigma vector has the singles of the derivative of the CC2 equations; its doubles are those of the derivative only if the one-body blocks acting on the doubles are replaced by the plain Fock matrix, so that EOMCC2 excitation energies are not those of the CC2 response.", "quantifier": "all system sizes, integrals with exchange symmetry, antisymmetric amplitudes and trial vectors; spin-symmetric ones for the closed-shell flag", "why_tests_cant": "tests compare a few molecular energies, mostly in canonical orbitals where singles are small, against values produced by the same code; they cannot show that every term is right for every system, nor reveal a doubled term that is second order in the singles", "anchors": ["ccpy/cc/cc2.py:update", "ccpy/cc/cc2.py:update_t1a", "ccpy/cc/cc2.py:update_t2a", "ccpy/cc/cc2.py:update_t2b", "ccpy/hbar/hbar_ccs.py:get_ccs_intermediates_opt", "ccpy/hbar/hbar_cc2.py:build_hbar_cc2", "ccpy/eomcc/eomcc2.py:HR"]}
{"id": "C87", "title": "MP2 and MP3 energies are those of Rayleigh-Schroedinger perturbation theory", "statement": "With the Fock operator F as unperturbed Hamiltonian and W = H - F, the MP2 energy is <ref|W|psi1> and the MP3 energy adds <psi1|W - E1|psi1>, where psi1 is the state with each doubly excited determinant K once, with coefficient <K|H|ref> over the difference of orbital energies. For canonical orbitals without zero denominators psi1 is the first-order state: F|ref> = E0|ref> and (F - E0)|psi1> = (E1 - W)|ref>, psi1 having no component along the reference.", "quantifier": "all numbers of occupied and virtual orbitals of either spin, all integrals with exchange symmetry (and bra-ket symmetric repulsion for MP3); the first-order equation for all canonical orbitals with a gap", "why_tests_cant": "tests compare energies of a few molecules; they cannot show that the spin-integrated sums over ordered pairs count each determinant once and with the right sign for every system, open or closed shell", "anchors": ["ccpy/mbpt/mbpt.py:calc_mp2", "ccpy/mbpt/mbpt.py:calc_mp3", "ccpy/lib/fortran/mbpt_loops.f90:mp2", "ccpy/lib/fortran/mbpt_loops.f90:mp3", "ccpy/drivers/driver.py:run_mbpt"]}
{"id": "C88", "title": "The left IP (3h-2p) and EA (3p-2h) vectors are adjoint to the right ones", "statement": "The vector computed by the left IP-EOMCCSD(3h-2p) and EA-EOMCCSD(3p-2h) programs satisfies <L|H R> = <L H|R>, with the scalar product over distinct components, for every left and right trial vector and every similarity-transformed Hamiltonian, it is antisymmetric, and hence left and right eigenvectors belonging to different roots are orthogonal, so that left and right solutions can be normalised to <L|R> = 1 and used together for properties and corrections.", "quantifier": "all system sizes, integrals and antisymmetric amplitudes and trial vectors", "why_tests_cant": "tests compare a handful of left and right roots; equal eigenvalues of one molecule do not show that every term of the left program is the transpose of the right one", "anchors": ["ccpy/left/left_ipeom3.py:LH_fun", "ccpy/left/left_ipeom_intermediates.py:get_leftipeom3_intermediates", "ccpy/left/left_eaeom3.py:LH_fun", "ccpy/left/left_eaeom_intermediates.py:get_lefteaeom3_intermediates", "ccpy/eomcc/ipeom3.py:HR", "ccpy/eomcc/eaeom3.py:HR"]}
{"id": "C89", "title": "The left CCSDT and EOMCCSDT equations belong to the same operator as the right ones", "statement": "The left vector the CCSDT left solver computes satisfies <L|H R> = <L H|R> against the EOMCCSDT right product for every left and right vector with singles, doubles and triples, and is antisymmetric. A pass of the left solver leaves a vector unchanged exactly when it solves the left equations: for an excited state the left eigenvalue equations of the given root, so that it is orthogonal to every right state of another root; for the ground state exactly when the CCSDT Lagrangian (energy plus L times the CCSDT equations) is stationary with respect to every change of the amplitudes. For every input there is a level shift for which the pass divides by no zero.", "quantifier": "all system sizes, integrals, antisymmetric cluster amplitudes, left and right vectors, roots and level shifts", "why_tests_cant": "tests compare a few left energies and dipoles of one molecule; a missing term in one of several hundred einsum statements, or a wrong sign among the 36 copies of a triples element, need not be visible there", "anchors": ["ccpy/left/left_ccsdt.py:update", "ccpy/left/left_ccsdt.py:LH_fun", "ccpy/left/left_cc_intermediates.py:build_left_ccsdt_intermediates", "ccpy/lib/fortran/cc_loops2.f90:update_L3", "ccpy/eomcc/eomccsdt.py:HR", "ccpy/hbar/hbar_ccsdt.py:build_hbar_ccsdt"]}
{"id": "C90", "title": "CCSDT and EOMCCSDT with the closed-shell shortcut agree with the unrestricted program", "statement": "For a closed-shell Hamiltonian and amplitudes that are antisymmetric and the same under exchange of the two spins, running with flag_RHF = True changes nothing: (a) build_hbar_ccsdt returns the same arrays, and they are again those of a closed shell; (b) HR of EOMCCSDT returns, in all nine spin blocks, what the unrestricted program returns, and maps singlets to singlets; (c) the CCSDT residual of such amplitudes has the same spin symmetry, and one iteration of CCSDT with flag_RHF leaves them unchanged exactly when one unrestricted iteration does; so the fixed points are the spin-symmetric exponential states that solve the Schroedinger equation projected on up to triple excitations.", "quantifier": "all numbers of occupied and unoccupied orbitals (equal for the two spins), all closed-shell Hamiltonians, all spin-symmetric antisymmetric T and R with triples, all level shifts with non-zero denominators", "why_tests_cant": "The shortcut replaces whole spin blocks by permuted copies; whether the copy is right depends on symmetries of every term of every intermediate, which a test molecule with few orbitals or with small triples does not separate.", "anchors": ["ccpy/cc/ccsdt.py: update", "ccpy/hbar/hbar_ccsdt.py: build_hbar_ccsdt", "ccpy/hbar/hbar_ccs.py", "ccpy/hbar/hbar_ccsd.py: get_ccsd_intermediates", "ccpy/eomcc/eomccsdt.py: HR", "ccpy/eomcc/eomccsdt_intermediates.py"]}
