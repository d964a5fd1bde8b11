# Formal model of ccpy in Rocq (Coq 8.16.1)

## Method

* `/repo` is read as text; every model definition cites the file and lines it models.
* For each topic `X` there are up to four files in `rocq/theories/`:
  * `XModel.v`  – total Gallina functions mirroring the code (loops are folds or fuel recursions, Python
    exceptions are `None`/error values, in-place mutation is returned state);
  * `XSpec.v`   – the specification vocabulary, written without using the model's helpers;
  * `XProofs.v` – lemmas;
  * `XProps.v`  – the property theorems only, each followed by a concrete instance (`Example`) that
    meets its hypotheses and by `Print Assumptions`.
* Properties that are false of the code are proved in refuted form (`..._refuted`, an existence
  statement with an explicit witness) next to the strongest true statement.

## Numbers

* Comparison-only code (selection, argsort) is modelled over `Q` or `Z`: every finite double is a rational
  and comparisons are exact.
* Arithmetic code (DIIS, Cholesky, densities, energies, integrals) is modelled over the real numbers `R` of
  the standard library. Floating-point rounding, overflow, NaN and complex data types are NOT modelled.
* Python/Fortran integers are `nat` or `Z`; Fortran 32-bit overflow is not modelled.

## Trusted base

Coq's kernel; the standard library axioms printed by `Print Assumptions` (for theorems over `R`:
`ClassicalDedekindReals.sig_forall_dec`, `ClassicalDedekindReals.sig_not_dec`,
`FunctionalExtensionality.functional_extensionality_dep`); the hand translation of Python/Fortran text to Gallina. numpy, h5py, f2py,
BLAS and the operating system are represented only by the contracts stated in the model comments.

## Plan per property

| id | model | proof |
|----|-------|-------|
| C01 | System.__init__ integer arithmetic over Z (Python `int(x/2)` truncates) | case analysis, lia |
| C02 | occupation list, repeated XOR fold | induction on orbital lists, N.lxor algebra |
| C03 | set_active_space min/max arithmetic | lia, witness for the beta defect |
| C04 | irrep tables as lists, product = N.lxor | finite decision by computation over the eight literal groups plus induction over lists |
| C05 | nested counting loops | induction, counting lemmas |
| C06,C07,C08 | operator = list of named blocks, flatten = concat, unflatten = split by dimensions | induction on blocks |
| C09 | extend = old ++ zeros | list lemmas |
| C10 | selection-sort swap loop on lists | invariant: parity * inversion sign |
| C11 | lineup loop | invariant on common positions |
| C12 | set differences on sorted lists | multiset lemmas |
| C13,C14 | nested loops as flat_map | membership and NoDup |
| C15,C16 | sequence of signed writes | fold invariant |
| C17 | fold of additions with RHF mirror | invariant over histories |
| C18 | stream fold with buffer state | invariant, witnesses |
| C19 | bottom-up merge passes | sortedness and permutation |
| C20 | table by nested loops, sort3 | bijection, block invariants |
| C21 | np.unique(vstack) | sorted-set lemmas |
| C22,C23,C24 | cc_jacobi as fuel loop over abstract update/energy | induction over iterations |
| C25 | elimination/back-substitution over R | induction, invariant of elimination |
| C26,C27 | Davidson state machine over abstract matvec | invariant |
| C28 | modified Gram–Schmidt over R | induction |
| C29 | pivoted Cholesky loop over R | invariant |
| C30,C31 | line fold over integral array | invariant; witnesses |
| C32–C34 | finite sums over R | algebra of sums |
| C35 | rational formulas over R | field |
| C36,C37 | column-major strides | index arithmetic, induction on rank |
| C38,C39 | loops over Z/nat | induction |
| C40 | einsum traces as finite sums | exchange of sums |
| C41 | table as aliased rows | witness + characterisation |
| C42,C43 | sums of squares; P-space vs dense | inequalities; reordering of sums |
| C46,C47 | list recursion; loop state machine | telescoping; invariant |
| C48 | driver state machine | invariant over call sequences, witnesses |
| C51 | update loops; einsum sums | fold invariant; sum algebra |
| C55 | left_cc_jacobi with abstract update/overlap | induction over iterations, witness |
| C56 | nonlinear_loop over abstract sigma/update | induction over iterations |
| C57 | signed writes of each row into an index-checked array | table-closure argument per spin case; abb by direct evaluation |
| C58 | swap loop over a list of pairs | invariant over the outer loop |
| C59 | writer and readers as folds over parsed lines | induction over the line list; witness for the exchanged indices |
| C60 | numpy's rule for the number of axes of an indexed array; the einsum calls in order | case analysis on the list lengths |
| C61 | both routines translated statement by statement (tools/gen_eomccsd.py) into sums over arrays | equality of the two bilinear forms decided by a verified normaliser for tensor contractions (TensorAlg.v), then applied for all sizes |
| C62 | CcsdModel.v (generated from the cited Python functions), LeftModel.v, EomModel.v | product-rule derivative of the reified residual (TensorDeriv.v) compared with the reified sigma routine by the verified tensor normaliser (TensorAlg.v) |
| C49 | Line-by-line reader over lists of integers, incl. early break, raise, counts; walker list with permutations and extraction loops. | Sets and sorted lists: uniqueness of the description of a determinant, induction over the file. |
| C50 | HilbertModel: both classes and slater_eval over Z indices, raise = None; HilbertSpec/HilbertRules: second-quantised strings and the Slater-Condon rules | parity of the permutation counters by induction over the removed orbitals; Hermiticity by exchanging one orbital; the way back by comparing sums of occupations |
| C44 | SpinSqModel.v: the matrix builders, as lists of rows; the index arrays with a symmetry predicate. | SpinSqSpec.v defines S^2 = S-S+ + Sz(Sz+1) with second-quantised operators on occupation strings (signs included); every matrix element is computed by evaluating S+ on the excited determinants; refuted parts have witnesses. |
| C54 | AmpFileModel.v: the nested loops as lists of stores X.block[index] = sign * amps[n + iroot*reclen], Python negative indices, IndexError = None. | AmpFileSpec.v writes the file layout down independently; the stores of all loops have pairwise distinct targets covering every index, so reading inverts dumping. |
| C45 | GuessModel.v: the nested loops of scatter and get_index_arrays with their running counters and signed stores; arrays as functions of index lists, the vector as a function of the position; the root-selection loop over the sorted spectrum. Eigenvalue solver, spin projection and printing not modelled. | GuessSpec.v lists the active excitations. Nested loops are flattened to a fold over the excitation list; a generic lemma gives the array after storing one signed group per element (groups disjoint, list without repetition); filtering the full enumeration by the activity test gives the active enumeration. Lengths by triangular sums. |
| C53 | ClusterModel: the Fortran statements, loop nests and copies, T1 = C1, order test; ClusterSpec: operators as antisymmetric coefficient functions, product, exponential | ClusterAlg expands exp(T) through rank 4, ClusterForm proves each formula equal to T, ClusterLog proves exp(log C) = C, ClusterProofs proves the filled arrays antisymmetric extensions |
| C52 | RhfModel.v: the flag_RHF branches of CCD, CCSD, Hbar-CCSD, EOM-CCSD HR and left CCSD generated from the einsum text; RhfUpdate.v: one iteration of each in program order. | RhfProps.v: restricted and unrestricted expressions reified and normalised modulo antisymmetry and spin exchange (TensorAlg), soundness lemma; fixed points via C51, left iterates by induction; two concrete witnesses for the refuted iterate-by-iterate claim. |
| C65 | ParseModel.v: both passes over the file, the parity of argsort, range checks with break, the insertion tables (transcribed mechanically), the sign fix of C.b, C.aab, C.bbb, lists of quadruples and counts | inversion counting: exponent of any string of annihilators = sum of occupied orbitals below minus non-inversions; the code's parity and the true phase differ by reference_below sums; loop = scatter of the selected lines; generic unfolding lemma for the nine tables |
| C63 | FockSpec.v and FockCcSpec.v (second quantisation from bits and phases, Hamiltonian, exponential, excited determinants), CcsdModel.v, IntegralsModel.v | anticommutation rules from the bit definition, Wick's theorem as a verified normaliser (FockWick.v), commuting excitation operators, termination of the exponential; the contractions of bra H exp(T) computed in the kernel and compared with the reified residual (FockCheck.v) |
| C64 | FockSpec.v, FockCcSpec.v (second quantisation), EomModel.v, CcsdModel.v, LeftModel.v (get_r0) | derivative of the projected equations of C63 along T + tR (exp(T + tR) expanded by the binomial of commuting excitations), C62_jacobian and uniqueness of the derivative |
| C66 | FockSpec.v, FockCcSpec.v, FockSectorSpec.v (second quantisation: operators R, sets of determinants), SectorModel.v (symbolic execution of the Python source), CcsdModel.v | commutation of R with exp(T), termination by counting holes, contractions of bra H exp(T) R computed in the kernel by the verified normaliser of FockWick.v and compared with the reified sigma vector (Sector*Fock.v); determinants of the method = strings applied to the reference (FockSpaces.v) |
| C67 | FockSpec.v, FockCcSpec.v, FockSectorSpec.v (second quantisation: operators R, sets of determinants), SectorModel.v (symbolic execution of the Python source), CcsdModel.v | commutation of R with exp(T), termination by counting holes, contractions of bra H exp(T) R computed in the kernel by the verified normaliser of FockWick.v and compared with the reified sigma vector (Sector*Fock.v); determinants of the method = strings applied to the reference (FockSpaces.v) |
| C68 | FockSpec.v, FockCcSpec.v, FockSectorSpec.v (second quantisation: operators R, sets of determinants), SectorModel.v (symbolic execution of the Python source), CcsdModel.v | commutation of R with exp(T), termination by counting holes, contractions of bra H exp(T) R computed in the kernel by the verified normaliser of FockWick.v and compared with the reified sigma vector (Sector*Fock.v); determinants of the method = strings applied to the reference (FockSpaces.v) |
| C69 | FockSpec.v, FockCcSpec.v, FockSectorSpec.v (second quantisation: operators R, sets of determinants), SectorModel.v (symbolic execution of the Python source), CcsdModel.v | commutation of R with exp(T), termination by counting holes, contractions of bra H exp(T) R computed in the kernel by the verified normaliser of FockWick.v and compared with the reified sigma vector (Sector*Fock.v); determinants of the method = strings applied to the reference (FockSpaces.v) |
| C70 | FockSpec.v, FockCcSpec.v, FockSectorSpec.v (second quantisation: operators R, sets of determinants), SectorModel.v (symbolic execution of the Python source), CcsdModel.v | commutation of R with exp(T), termination by counting holes, contractions of bra H exp(T) R computed in the kernel by the verified normaliser of FockWick.v and compared with the reified sigma vector (Sector*Fock.v); determinants of the method = strings applied to the reference (FockSpaces.v) |
| C71 | FockSpec.v, FockCcSpec.v, FockSectorSpec.v (second quantisation: operators R, sets of determinants), SectorModel.v (symbolic execution of the Python source), CcsdModel.v | commutation of R with exp(T), termination by counting holes, contractions of bra H exp(T) R computed in the kernel by the verified normaliser of FockWick.v and compared with the reified sigma vector (Sector*Fock.v); determinants of the method = strings applied to the reference (FockSpaces.v) |
| C72 | SectorModel.v (right and left programs) | both scalar products reified and normalised in the kernel (TensorAlg.v, same_tab_sound) |
| C73 | CcsdModel.v (hbar_ccsd, ccsd, cc_energy), FockDress.v (dressed), HbarSpec.v (agreement of blocks) | operators: commutators of T1 with creators and annihilators (FockDress.v); blocks: substitution of dressed arrays in reified programs, normal forms compared in the kernel (HbarDress.v, HbarBlocks.v) |
| C74 | Sector3Model.v (generated from the einsum calls), Sector3Spec.v, RankSpec.v | Wick expansion of (H - E - w) R exp(T2) evaluated in the kernel (FockFast.v, FockSector3.v) for dressed integrals, T1 moved into the integrals (FockShift.v, C73) |
| C75 | Sector3Model.v (generated from the einsum calls), Sector3Spec.v, RankSpec.v | Wick expansion of (H - E - w) R exp(T2) evaluated in the kernel (FockFast.v, FockSector3.v) for dressed integrals, T1 moved into the integrals (FockShift.v, C73) |
| C76 | Sector3Model.v (generated from the einsum calls), Sector3Spec.v, RankSpec.v (flag_RHF = False) | Wick expansion of (H - E - w) R exp(T2) evaluated in the kernel (FockFast.v, FockSector3.v) for dressed integrals, T1 moved into the integrals (FockShift.v, C73) |
| C77 | Sector3Model.v (generated from the einsum calls), Sector3Spec.v, RankSpec.v (flag_RHF = False) | Wick expansion of (H - E - w) R exp(T2) evaluated in the kernel (FockFast.v, FockSector3.v) for dressed integrals, T1 moved into the integrals (FockShift.v, C73) |
| C78 | Sector3Model.v (program), SpinFlip3Fixed.v (program with eleven terms changed), Sector3Spec.v | program and corrected program agree in singles and doubles by conversion; corrected program against the Wick expansion as C74; the program refuted by a root 7/3 of a molecule whose exact value is 2 |
| C79 | CcsdtModel.v and CcsdtUpdate.v (generated from ccsdt.py and cc_loops2.f90): the nine right-hand sides with their intermediates, the triples update loops cell by cell, one iteration | SdtFock.v: reflective Wick evaluation of (H-E)exp(T)|ref> along singles, doubles and triples for T1 = 0; SdtDress.v: T1 moved into the integrals; SdtLoops.v: loops by induction over the visited cells; CcsdtProps.v |
| C80 | CrccModel.v: calc_crcc23 with its intermediates, the four Fortran routines (X3, L3, moments, left amplitudes, denominators A-D, do loops) and the three-body diagonals, generated from the source; exact reals | exp(-T)H exp(T)(1+T3)|ref> = E(1+T3)|ref> + residual of the CCSDT equations (from C79), applied to T3 = one determinant; differences of residuals are compared with the program's polynomials by the normaliser; loops by induction |
| C81 | the four Fortran kernels, generated from their text: X3 contractions, antisymmetrisation, disconnected terms, denominators, loop ranges, use_RHF doubling | commutator expanded on determinants (C53-C80 engine); left factor from C80 at T = 0 with L = T; loops re-indexed as ordered sums; closed shells by spin-flipping each kernel |
| C82 | CreomModel: the four loops, the intermediates, both sets of sums, generated from the Fortran and Python text | the EOM moment array is the derivative of the ground-state moment along T + t R (checked by symbolic differentiation of reified terms), and the same derivative in Fock space is the commutator; the back term vanishes on triples when the CCSD equations hold; loops are sums over increasing indices |
| C83 | CholModel (generated by symbolic execution, both values of flag_RHF), CholLoops (Fortran contraction), CholUpdate (iteration) | normal forms of the factorised and dense residuals compared by reflection; triangular sums by induction; fixed points as in C51; C63 for the Schroedinger equation |
| C84 | CholEomModel.v, generated from the Python text by symbolic execution (tools/gen_cholhbar.py); the Fortran contraction is CholLoops.v | Reification with the two-body blocks replaced by their Cholesky sums; Hbar block by block, the sigma vectors for arbitrary Hbar blocks with the four-virtual block given by dressed vectors; ordered-pair sums by the lemma of C83; composed with C64 for the Schroedinger equation |
| C85 | EomsdtModel.v: all contractions of hbar_ccsdt.py and eomccsdt.py, generated from the source text | the reified HR equals the symbolic derivative of the reified CCSDT residual (normal forms, kernel computation), then the second-quantised argument of C79 differentiated along R |
| C86 | Cc2Model.v (generated from cc2.py, hbar_ccs.py, hbar_cc2.py, eomcc2.py, following array sharing), Cc2Update.v | Fixed point as for CCSD. Reified residuals: CC2 singles = CCSD singles; CC2 doubles = CCSD doubles with T2 = 0 plus CCSD doubles of the Fock operator with T1 = 0; the CCSD projections come from the similarity-transformed Hamiltonian of C80. Symbolic derivative for EOMCC2. A four-electron case with rational numbers refutes the closed-shell and Jacobian claims |
| C87 | MbptModel.v: the loops of mp2 and mp3 as folds over the index lists, the amplitude arrays built by four writes per body; MbptSpec.v: F, W, E0, E1, psi1 on determinants | the loops become sums (MbptProofs), the components of F and W on |ref> and |psi1> come from the proved projections of H and of its derivative (C62, C68) at zero amplitudes (MbptAlg, MbptFock) |
| C88 | Left3Model.v (generated by tools/gen_left3.py): the einsum statements of the left programs and their L*T intermediates; the right programs of Sector3Model.v | both sides reified; the antisymmetrising statements are removed first (contracted with an antisymmetric vector they only cancel the weights), then the two polynomials are compared by the verified normaliser |
| C89 | LeftSdtModel.v (generated by tools/gen_left_sdt.py): every einsum statement of build_LH_1A..3D and of the L*T intermediates; LeftSdtUpdate.v: update_L3 with its copies in program order and one pass of update; the right product and hbar_ccsdt of EomsdtModel.v | both sides of <L|HR> = <LH|R> reified and compared by the verified normaliser after the antisymmetrisers are removed against the antisymmetric partner; the loops by an invariant over the visited cells; stationarity from C85_jacobian, adjointness and definiteness of the scalar product |
| C90 | The same functions translated once with flag_RHF False and once with True (SdtClosedModel, generated), and the order of loops and copies in update (SdtClosedUpdate) | Canonical forms of all blocks modulo the antisymmetry and spin-exchange symmetry of H, T, R; the loops by the fixed-point lemmas of C79 |

## Appendix: trusted base in detail

<!-- generated: trust -->
### Assumptions of each theorem (output of `Print Assumptions`)

* **no axioms** (closed under the global context) – 160 theorems: C46_steps_follow_percentages, C46_total, C46_nonnegative, C46_rhf_halves, C46_hundred_twice_refuted, C46_decreasing_refuted, C46_fixed_growth, C18_outside_pspace, C18_empty_pspace, C18_single_triple_offered_again_refuted, C29_shell_lookup, C29_pyscf_call_refuted, C49_one_description, C49_triples_exact, C49_quadruples_exact, C49_listed_determined, C49_rest_ignored_refuted, C49_wrong_spin_raises, C49_qmc_exact, C49_qmc_spin_refuted, C38_binom_i, C38_out_of_range_refuted, C38_factorial, C39_visits_all, C39_empty_selection, C26_no_iterations, C48_needs_hbar, C48_eomccp_refuted, C48_ccsdpt_bare, C48_ccsdpt_interrupted_refuted, C48_bare_without_hbar, C48_no_way_back, C48_repeat_refuted, C48_rhf_sticky, C48_cc3_sticky, C48_cct3_strips, C48_ccp3_list_raises, C48_ccp3_repeats, C48_unknown_correction_silent, C48_cct3_ground_refuted, C48_correction_recorded, C48_ccp3_recorded, C48_fock_shapes, C48_fockp_shapes, C48_eom_shapes, C48_sf_shape_refuted, C48_vectors_kept, C48_second_method_refuted, C45_active_excitations, C45_cisd_index_arrays, C45_ea_ip_excitations, C45_selection, C45_no_symmetry_repeats, C50_roundtrip_refuted, C50_open_shell_raises_refuted, C50_accepts, C50_excitation_accepts, C50_nonexistent_orbital_refuted, C30_symmetry, C30_values, C30_loads, C31_deleted_orbitals_refuted, C31_one_electron, C31_orbital_energy_refuted, C59_onebody, C59_twobody, C59_roundtrip_refuted, C32_g_matrix_cholesky_refuted, C33_block_names, C33_partition, C60_shift_normal_order_refuted, C06_roundtrip, C06_vector, C06_constructor, C07_empty_lists_lengthen_the_vector, C07_empty_list_roundtrip_refuted, C07_active_below_dense_refuted, C08_fock_roundtrip, C08_fock_vector, C08_fock_defined, C08_triple_attachment_fails, C08_spinflip_roundtrip, C08_spinflip_vector, C09_extend_keeps_amplitudes, C06_spin_cases, C06_dense_shape, C06_pspace_shape, C06_active_shape, C10_parity_is_sign, C10_argument_is_sorted_in_place, C10_exchange_flips_parity, C11_lineup, C12_holes_and_particles, C12_rank, C12_spincase, C12_spatial_orbital, C13_active_triples, C13_placeholder_unambiguous, C13_active_3p2h, C13_active_3h2p, C13_active_4p2h, C14_qspace_complement, C14_out_of_range_label, C14_partition, C14_active_partition, C14_active_q_rows, C21_union, C21_order_independent, C21_placeholder_refuted, C41_density_of_last_state, C41_initial, C41_own_density_refuted, C37_permute, C37_inverse_after_permute, C37_permute_after_inverse, C36_permutation_string, C36_reorder_stripe, C36_reorder_shift, C36_reorder4, C58_rearrangement, C58_follows_target, C17_one_addition, C17_unrestricted_additions, C17_restricted_additions, C17_history, C17_prefix, C17_restricted_invariant, C17_ones_is_dropped, C19_argsort, C20_table3_range, C20_ordered_triples, C20_free_then_pair, C20_pair_then_free, C20_three_free, C20_triple_and_free, C20_two_pairs, C20_pair_and_two_free, C20_four_free, C20_sort4_blocks, C20_sort3_blocks, C20_sort3_single_excitation_refuted, C20_sort4_placeholder, C04_xor_is_irrep_product, C04_group_laws, C05_count_singles, C05_count_doubles, C05_count_triples, C05_count_1p, C05_count_2p1h, C05_count_3p2h, C01_electron_accounting, C01_inconsistent_parity_drops_electron, C02_reference_symmetry, C02_closed_shell_totally_symmetric, C03_active_space_partition_alpha, C03_active_space_partition_beta, C03_beta_virtuals_refuted, C03_full_active_space, C03_same_window_for_both_spins, C02_orbital_symmetries.
* **`ClassicalDedekindReals.sig_forall_dec`** – 12 theorems: C54_ground_state_open_refuted, C54_short_file, C29_integral_blocks, C45_cisd_layout, C45_cisd_dimension, C33_sorted_blocks, C34_blocks_set, C36_sum_stripe, C36_sum_shift, C36_sum4, C15_placeholder, C16_zeroing.
* **`ClassicalDedekindReals.sig_forall_dec`, `FunctionalExtensionality.functional_extensionality_dep`** – 258 theorems: C47_stops, C47_never_raises, C47_hamiltonians, C47_pspace, C47_pspace_grows, C47_percentage, C47_second_run_refuted, C47_maximum_iterations_refuted, C54_excited_state, C54_default_root_is_last, C54_other_types, C54_ground_state, C18_selected_are_candidates, C18_largest_kept, C18_exact_when_it_fits, C18_selection_adds_new_triples, C18_full_buffer_drops_largest_refuted, C18_unsorted_threshold_refuted, C86_fixed_point, C86_projections, C86_converged, C86_eomcc2_jacobian, C86_closed_shell, C86_closed_shell_refuted, C86_eomcc2_jacobian_refuted, C62_jacobian, C62_energy_gradient, C62_lagrangian, C51_ccsd_fixed_point, C51_update_antisym, C51_update_value, C51_left_fixed_point, C62_lambda_stationary, C79_iteration, C79_update_same_spin, C79_update_mixed_spin, C79_terminates, C79_energy, C79_schroedinger, C79_fixed_point, C79_ccsdt, C84_hbar, C84_right, C84_left, C84_eomccsd, C84_closed_shell, C83_contraction, C83_hamiltonian, C83_residual, C83_fixed_point, C83_ccsd, C83_closed_shell, C53_ci_is_exp, C53_unique, C53_returns_T, C53_energy, C53_order4, C53_zero_refuted, C38_binom_r, C38_factorial_combination, C80_closed_shell, C80_moments, C80_left, C80_denominators, C80_energy, C80_correction, C80_orbital_denominators, C82_moments, C82_eom_moments, C82_left, C82_correction, C82_ddelta, C82_orbital_denominators, C82_closed_shell, C25_gauss_solves, C25_coefficients_sum_to_one, C25_minimal_residual, C25_extrapolated_vector, C25_fixed_point, C42_rel_bounds, C42_rel_limits, C42_rel_ea_bounds, C42_rel_ip_bounds, C42_rel_scale_invariant, C43_overlap, C43_misaligned_raises, C43_overlap_ea, C43_overlap_ip, C43_ip_abb_refuted, C61_adjoint, C61_biorthogonal, C85_jacobian, C85_energy_gradient, C85_antisymmetric, C85_eigenvector, C85_state, C85_eomccsdt, C64_schroedinger, C64_root, C64_sigma, C64_eomccsd, C63_terminates, C63_energy, C63_residual, C63_schroedinger, C63_fixed_point, C63_textbook, C63_arrays, C63_reference_energy, C63_ccsd, C45_cisd_indices, C45_attached, C45_ionized, C45_two_particles, C45_two_holes, C45_two_particles_refuted, C45_two_holes_refuted, C50_excitation, C50_hermitian, C50_slater_condon, C50_one_electron_raises_refuted, C32_half_trace, C32_unsorted, C32_sorted, C32_frozen_core, C32_g_matrix, C33_antisymmetric, C33_exchange_needed_refuted, C33_uhf_antisymmetric, C33_hamiltonian_antisymmetric, C34_fock, C34_hf_energy, C34_blocks, C34_one_body, C34_batches, C88_ip_adjoint, C88_ip_adjoint_hbar, C88_ip_biorthogonal, C88_ip_antisym, C88_ea_adjoint, C88_ea_adjoint_hbar, C88_ea_biorthogonal, C88_ea_antisym, C89_fixed_point, C89_lambda_stationary, C89_roots_orthogonal, C89_shift_exists, C89_adjoint, C89_adjoint_hbar, C89_antisymmetric, C89_biorthogonal, C89_lagrangian, C89_stationary, C87_zeroth_order, C87_first_order, C87_mp2, C87_mp3, C65_amplitudes_general, C65_closed_shell, C65_one_unpaired_electron, C65_missing_reference, C65_unknown_orbital_ends_reading, C65_open_shell_refuted, C81_moments, C81_left, C81_correction, C81_closed_shell, C40_trace_ccsd, C40_trace_ccsdt, C40_response, C40_closed_shell, C52_ccsd_converged, C52_ccd_converged, C52_hbar, C52_hbar_closed, C52_right_product, C52_left_product, C52_left_iterations, C52_ccsd_iterates_refuted, C52_ccd_exchange_refuted, C15_dense_triples, C15_unique, C16_antisymmetry_and_idempotence, C57_dense_3p2h, C57_dense_3h2p, C57_3h2p_abb_refuted, C73_dressed, C73_hbar, C73_energy, C73_residual, C74_schroedinger, C74_antisym, C74_chain, C75_schroedinger, C75_antisym, C75_chain, C76_schroedinger, C76_antisym, C76_chain, C77_schroedinger, C77_antisym, C77_chain, C66_sigma, C66_schroedinger, C66_antisym, C66_chain, C67_sigma, C67_schroedinger, C67_antisym, C67_chain, C68_sigma, C68_schroedinger, C68_antisym, C68_chain, C69_sigma, C69_schroedinger, C69_antisym, C69_chain, C70_sigma_2p, C70_schroedinger_2p, C70_chain_2p, C70_sigma, C70_schroedinger, C70_antisym, C70_chain, C71_sigma, C71_schroedinger, C71_antisym, C71_chain, C72_ip_adjoint, C72_ip_adjoint_hbar, C72_ip_biorthogonal, C72_ea_adjoint, C72_ea_adjoint_hbar, C72_ea_biorthogonal, C19_argsort_descending, C78_doubles, C78_corrected, C78_antisym, C78_refuted, C44_closed_shell, C44_symmetry, C44_one_hole, C44_one_particle, C44_one_particle_refuted, C44_two_particles, C44_two_particles_refuted, C44_two_holes, C44_two_holes_refuted, C44_spin_flip, C44_spin_flip_refuted, C90_hbar, C90_hbar_closed, C90_right_vector, C90_residual_singlet, C90_iterate_copies, C90_converged, C90_schroedinger.
* **`ClassicalDedekindReals.sig_forall_dec`, `Classical_Prop.classic`, `FunctionalExtensionality.functional_extensionality_dep`** – 2 theorems: C47_left_transformed, C44_cis.
* **`ClassicalDedekindReals.sig_forall_dec`, `ClassicalDedekindReals.sig_not_dec`, `FunctionalExtensionality.functional_extensionality_dep`** – 33 theorems: C27_storage, C27_unconverged_fails, C27_single_root, C27_flags, C27_subspace, C27_index_error_refuted, C29_tracked_diagonal, C29_return, C29_positive_semidefinite, C29_rank_limit_refuted, C29_integral_decomposition, C29_buffer_refuted, C26_subspace, C26_orthonormal, C26_return, C28_gramschmidt, C28_defined_iff_independent, C35_rational_exact, C35_others_refuted, C35_quadratic_root, C35_defined, C35_no_triples, C35_unknown_name, C22_convergence_contract, C23_converged_energy, C23_unconverged_energy_without_extrapolation, C23_no_iterations, C23_diis_energy_refuted, C24_history_window, C55_left_vector_biorthonormal, C55_reported_overlap, C55_reported_overlap_refuted, C56_nonlinear_converged.

### Source lines cited by the model

Collected from the comments of the theory files; everything not cited here is not modelled.

* `ccpy/cc/cc2.py` (124 lines): lines 10-40, 46-58, 65-77, 84-91, 98-109, 116-123; in Cc2Model, Cc2Props, Cc2Update.
* `ccpy/cc/ccd.py` (170 lines): lines 10-21, 28-63, 71-126, 134-169; in RhfModel, RhfUpdate.
* `ccpy/cc/ccsd.py` (183 lines): lines 9-34, 40-52, 61-73, 84-105, 116-150, 161-182; in CcsdModel, CcsdUpdate, RhfModel, RhfUpdate.
* `ccpy/cc/ccsd_chol.py` (314 lines): lines 10-115, 122-141, 148-167, 174-188, 193-199, 205-210, 227-263, 268-274, 281-303, 309-314; in CholModel, CholReify, CholUpdate.
* `ccpy/cc/ccsdt.py` (423 lines): lines 11-51, 57-77, 84-104, 112-139, 147-191, 199-227, 235-241, 244-259, 267-292, 295-324, 332-357, 360-389, 397-404, 407-422; in CcsdtModel, CcsdtProps, CcsdtUpdate.
* `ccpy/cholesky/cholesky.py` (301 lines): lines 5-69, 181-300; in CholeskyModel.
* `ccpy/cholesky/cholesky_builders.py` (53 lines): lines 3-50; in IntegralsModel.
* `ccpy/density/rdm1.py` (125 lines): lines 12-24, 27-36, 39-40, 43-63, 68-125; in RdmModel.
* `ccpy/drivers/adaptive.py` (1767 lines): lines 11-43, 58-69, 73, 76-81, 103-112, 125-166, 246-343; in AdaptModel.
* `ccpy/drivers/diis.py` (70 lines): lines 7-23, 29-70; in DiisModel, SolverModel.
* `ccpy/drivers/driver.py` (2378 lines): lines 30-90, 109, 1521-1528, 2366-2368; in DriverModel, RdmStore, SolverModel.
* `ccpy/drivers/solvers.py` (937 lines): lines 92-230, 360-471, 560, 597-602, 656; in DavidsonModel, SolverModel.
* `ccpy/energy/cc_energy.py` (186 lines): lines 6-16, 33-43, 58-59, 62-71; in CcsdModel, ClusterModel, EnergyModel, LeftModel, SolverModel.
* `ccpy/energy/hf_energy.py` (152 lines): lines see comments; in IntegralsModel.
* `ccpy/eom_guess/cis.py` (319 lines): lines see comments; in SpinSqModel, SpinSqProps.
* `ccpy/eom_guess/cisd.py` (1055 lines): lines 33-57, 65-122, 135-141; in GuessModel.
* `ccpy/eom_guess/deacis.py` (182 lines): lines 64-77, 90, 116-154; in GuessModel, SpinSqModel.
* `ccpy/eom_guess/dipcis.py` (172 lines): lines 62-77, 90, 110-143; in GuessModel, SpinSqModel.
* `ccpy/eom_guess/eacisd.py` (443 lines): lines 65-100, 111-114, 416-443; in GuessModel.
* `ccpy/eom_guess/ipcisd.py` (500 lines): lines 64-99, 166-169, 473-500; in GuessModel.
* `ccpy/eom_guess/s2matrix.py` (436 lines): lines 79-89, 97-98; in SpinSqModel.
* `ccpy/eomcc/deaeom2.py` (30 lines): lines 19-23, 26-28; in SectorModel.
* `ccpy/eomcc/deaeom3.py` (127 lines): lines 25-36, 39-47, 52-86, 91-125; in SectorModel.
* `ccpy/eomcc/deaeom4.py` (290 lines): lines 30-49, 52-64, 69-102, 107-140, 146-156, 159-175, 178-182, 188-210, 213-239, 242-247, 253-263, 266-282, 285-289; in Sector3Model.
* `ccpy/eomcc/deaeom4_intermediates.py` (264 lines): lines 12-24, 27-127; in Sector3Model.
* `ccpy/eomcc/dipeom3.py` (108 lines): lines 25-36, 39-47, 51-74, 77, 81-104, 107; in SectorModel.
* `ccpy/eomcc/dipeom4.py` (207 lines): lines 30-49, 52-64, 68-90, 94-116, 121-142, 147-179, 184-205; in Sector3Model.
* `ccpy/eomcc/dipeom4_intermediates.py` (429 lines): lines 12-24, 28-37, 40-50, 53-61, 64-73, 76-86, 89-97; in Sector3Model.
* `ccpy/eomcc/eaeom2.py` (73 lines): lines 23-29, 34-38, 43-54, 59-71; in SectorModel.
* `ccpy/eomcc/eaeom3.py` (174 lines): lines 28-40, 44-52, 57-75, 80-101, 106-120, 125-150, 155-173; in Sector3Model.
* `ccpy/eomcc/eaeom3_intermediates.py` (215 lines): lines 13-37, 40-56; in Sector3Model.
* `ccpy/eomcc/eomcc2.py` (100 lines): lines 24-40, 43-52, 57-66, 71-76, 81-88, 93-98; in Cc2Model, Cc2Props.
* `ccpy/eomcc/eomccsd.py` (133 lines): lines 31-48, 52-61, 66-75, 80-91, 96-115, 120-131; in EomModel, RhfModel.
* `ccpy/eomcc/eomccsd_chol.py` (165 lines): lines 32-50, 54-63, 68-77, 83-87, 94-104, 109-115, 121-137, 142-146, 153-163; in CholEomModel, CholEomReify.
* `ccpy/eomcc/eomccsd_intermediates.py` (92 lines): lines 12-42, 51-91; in CholEomModel, CholEomReify, EomModel, RhfModel.
* `ccpy/eomcc/eomccsdt.py` (353 lines): lines 34-64, 68-81, 86-99, 104-125, 130-163, 168-189, 194-216, 222-238, 241-271, 277-325, 330-352; in EomsdtModel, EomsdtNorm, EomsdtProps.
* `ccpy/eomcc/eomccsdt_intermediates.py` (369 lines): lines 12-48, 61-63, 78-93, 98-113, 118-134, 139-155, 160-198, 202-280, 285-323; in EomsdtModel.
* `ccpy/eomcc/ipeom2.py` (75 lines): lines 27-33, 36-40, 45-56, 61-73; in SectorModel.
* `ccpy/eomcc/ipeom3.py` (179 lines): lines 32-44, 49-57, 62-80, 85-106, 111-125, 130-155, 160-178; in Sector3Model.
* `ccpy/eomcc/ipeom3_intermediates.py` (440 lines): lines 13-37, 40-56; in Sector3Model.
* `ccpy/eomcc/sfeomcc23.py` (213 lines): lines 28-56, 60-73, 78-100, 105-127, 132-152, 157-187, 192-212; in Sector3Model, SpinFlip3Fixed.
* `ccpy/eomcc/sfeomcc23_intermediates.py` (96 lines): lines 10, 17-27, 30-40, 43-54, 57-68, 71-81, 84-94; in Sector3Model, SpinFlip3Fixed.
* `ccpy/eomcc/sfeomccsd.py` (96 lines): lines 24-46, 50-59, 64-77, 82-95; in SectorModel.
* `ccpy/eomcc/teaeom2.py` (33 lines): lines 20-31; in SectorModel.
* `ccpy/extcorr/external_correction.py` (374 lines): lines 107-373; in ClusterModel, ParseModel.
* `ccpy/extrapolation/goodson_extrapolation.py` (37 lines): lines 3-37; in ExtrapModel.
* `ccpy/hbar/diagonal.py` (109 lines): lines 30-31, 51-52, 72-73, 93-94; in CrccModel.
* `ccpy/hbar/hbar_cc2.py` (228 lines): lines 12-206, 228; in Cc2Model, Cc2Props.
* `ccpy/hbar/hbar_cc3.py` (576 lines): lines 149; in DriverModel.
* `ccpy/hbar/hbar_ccs.py` (335 lines): lines 9, 13, 16-32, 45-61, 67-103, 108-111, 115-131, 136-148; in Cc2Model, CcsdModel, CcsdtModel, DriverModel, RhfModel.
* `ccpy/hbar/hbar_ccsd.py` (556 lines): lines 7-49, 53-54, 58-60, 66-71, 75-86, 92, 96-98, 104-116, 120-154, 160-166, 170-202, 208-219, 223-234, 237-264, 270-275, 279-290, 296, 299-302, 313-314, 318-320, 323, 327-329, 334, 338-340, 345-350, 354-365, 370-375, 379-390, 395-401, 405-437, 442-454, 458-492, 497-508, 512-523, 526-553; in CcsdModel, CcsdtModel, DriverModel, HbarSpec, RhfModel.
* `ccpy/hbar/hbar_ccsd_chol.py` (1306 lines): lines 7, 10-69, 75-86, 89-96, 100-112, 135-151, 157-169, 175-183, 189-227, 233-265, 271-311; in CholEomModel, DriverModel.
* `ccpy/hbar/hbar_ccsdt.py` (654 lines): lines 6-48, 52-53, 57-59, 65-70, 74-85, 91, 95-97, 103-117, 121-161, 167-173, 177-209, 215-228, 232-245, 248-279, 285-290, 294-305, 311, 315-319; in DriverModel, EomsdtModel, EomsdtProps.
* `ccpy/hbar/hbar_ccsdt_p.py` (395 lines): lines 7, 353-395; in DriverModel.
* `ccpy/interfaces/fcidump_tools.py` (167 lines): lines 66-114; in IntFilesModel.
* `ccpy/interfaces/gamess_tools.py` (274 lines): lines 198-273; in IntFilesModel.
* `ccpy/left/left_cc_intermediates.py` (452 lines): lines 11-26, 35-53, 56-59, 71-81, 84-122, 126-135, 138-202; in CholEomModel, CholEomReify, EomModel, LeftSdtModel, LeftSdtProps, RhfModel.
* `ccpy/left/left_ccsd.py` (524 lines): lines 5-49, 71-89, 93-104, 110-125, 129-140, 145-166, 170-181; in EomModel, LeftModel, RhfModel, RhfUpdate.
* `ccpy/left/left_ccsd_chol.py` (222 lines): lines 72-90, 94-109, 115-132, 137-146, 153-158, 164-170, 176-194, 199-208, 215-220; in CholEomModel, CholEomReify.
* `ccpy/left/left_ccsdt.py` (669 lines): lines 6-60, 128-131, 134-164, 167-168, 171-185, 188-213, 219-222, 225-255, 258-259, 262-276, 279-304, 311-335, 338-343, 346-349, 352-353, 356-361, 368-413, 416-431, 434-445, 448-451, 454-462, 468-492, 495-500, 503-506, 509-510, 513-518, 525, 528-531, 534-547, 554-555, 559-574, 577-593, 600-601, 604-619, 622-638, 645, 648-651, 654-667; in LeftSdtIter, LeftSdtModel, LeftSdtProps, LeftSdtUpdate.
* `ccpy/left/left_eaeom2.py` (67 lines): lines 18-24, 29-31, 36-48, 53-66; in SectorModel.
* `ccpy/left/left_eaeom3.py` (374 lines): lines 23-36, 40-48, 53-72, 77-102, 108-124, 130-158, 164-184; in Left3Model, Left3Props.
* `ccpy/left/left_eaeom_intermediates.py` (81 lines): lines 10-13, 16-19, 22-25, 28-31, 34-37, 40-43; in Left3Model.
* `ccpy/left/left_ipeom2.py` (83 lines): lines 35-41, 45-47, 52-64, 69-82; in SectorModel.
* `ccpy/left/left_ipeom3.py` (188 lines): lines 23-37, 40-48, 53-72, 77-102, 108-125, 131-160, 166-187; in Left3Model, Left3Props.
* `ccpy/left/left_ipeom_intermediates.py` (82 lines): lines 10-13, 16-19, 22-25, 28-31, 34-38, 41-44; in Left3Model.
* `ccpy/lib/fortran/cc_loops2.f90` (1904 lines): lines 10-303, 306-543, 767-811, 839-897, 937-1191; in Cc2Update, CcsdUpdate, CcsdtUpdate, CholUpdate, LeftSdtUpdate, LoopModel.
* `ccpy/lib/fortran/ccp3_adaptive_loops.f90` (1581 lines): lines 55-59, 66, 72-84, 108-112, 171-186, 409, 647, 836, 1379-1579; in QspaceModel, SelectModel, SortModel, TableModel.
* `ccpy/lib/fortran/ccsdpt_loops.f90` (1929 lines): lines 11-458; in PtModel.
* `ccpy/lib/fortran/ccsdt_p_loops.f90` (8084 lines): lines 1390-1429, 7861-8007; in SortModel, TableModel.
* `ccpy/lib/fortran/clusteranalysis.f90` (961 lines): lines 11-16, 19-75, 96-302, 342-801; in ClusterModel.
* `ccpy/lib/fortran/combinatorics.f90` (217 lines): lines 7-217; in CombinModel, ReorderModel.
* `ccpy/lib/fortran/crcc_loops.f90` (1845 lines): lines 12-1517; in CrccModel, CreomModel.
* `ccpy/lib/fortran/mbpt_loops.f90` (743 lines): lines 7-59, 97-119, 134-271; in MbptModel, MbptProps.
* `ccpy/lib/fortran/reorder.f90` (663 lines): lines see comments; in ReorderModel.
* `ccpy/lib/fortran/vvvv_contraction.f90` (210 lines): lines 7-91; in CholLoops.
* `ccpy/mbpt/mbpt.py` (88 lines): lines 6-52, 88; in MbptModel, MbptProps.
* `ccpy/models/hilbert.py` (391 lines): lines 6-30, 43-83, 89-136, 148-254; in HilbertModel.
* `ccpy/models/integrals.py` (386 lines): lines 5-35, 133-149; in CholLoops, CholUpdate, FockCcSpec, IntegralsModel, TensorObjs.
* `ccpy/models/operators.py` (373 lines): lines 10-373; in AmpFileModel, EnergyModel, FockCcSpec, IntegralsModel, OperatorsModel, OperatorsProps, ScatterModel, Sector3Model, SectorModel, TensorObjs.
* `ccpy/models/system.py` (187 lines): lines 5-114, 126-136; in CipsiModel, IntFilesModel, IntegralsModel, OperatorsModel, SystemModel.
* `ccpy/moments/ccp3.py` (2480 lines): lines 196-295; in QspaceModel, SelectModel.
* `ccpy/moments/crcc23.py` (245 lines): lines 22-37, 40, 54-56, 75-156, 180-224, 230-234; in CrccModel, PtModel.
* `ccpy/moments/creomcc23.py` (298 lines): lines 43, 55-57, 75-141, 209-297; in CreomModel.
* `ccpy/mrcc/normal_order.py` (46 lines): lines 4-24; in IntegralsModel.
* `ccpy/utilities/active_space.py` (305 lines): lines 132-243, 246-304; in PspaceModel, ScatterModel.
* `ccpy/utilities/determinants.py` (69 lines): lines 7-69; in CipsiModel, ParseModel, PermModel, SelectModel.
* `ccpy/utilities/dumping.py` (113 lines): lines 1-25; in IntFilesModel.
* `ccpy/utilities/permutations.py` (42 lines): lines 2-42; in PermModel.
* `ccpy/utilities/pspace.py` (1114 lines): lines 64-497, 616-626; in CipsiModel, PspaceModel.
* `ccpy/utilities/qspace.py` (298 lines): lines 67-83; in PspaceModel.
* `ccpy/utilities/selection.py` (362 lines): lines 5-116; in SelectModel.
* `ccpy/utilities/symmetry.py` (362 lines): lines 1-17, 20-362; in SymmetryModel.
* `ccpy/utilities/utilities.py` (410 lines): lines 45-80, 85-88, 93-96, 101-136, 149-181, 199-210, 215-216, 221-224, 242-253, 306-407; in AmpFileModel, DavidsonModel, ScatterModel.

Files of the package with no modelled line:

* `ccpy`: _version.py.
* `ccpy/cc`: accd.py, accsd.py, accsdt_p.py, cc3.py, cc4-old.py, cc4.py, ccsdt_chol.py, ccsdt_p.py, ccsdt_p_chol.py, ccsdtq.py, eccc2.py.
* `ccpy/constants`: constants.py.
* `ccpy/density`: natural_orbitals.py.
* `ccpy/drivers`: solvers-bak.py.
* `ccpy/energy`: lrcc_energy.py.
* `ccpy/eom_guess`: cisd_chol.py, cisd_matrix.py, eacis.py, ipcis.py, sfcis.py.
* `ccpy/eomcc`: deaeom4_p.py, dipeomccsdt.py, dipeomccsdta.py, eaeom3_p.py, eaeomccsdt.py, eomcc3.py, eomcc3_intermediates.py, eomccsdt_p.py, ipeom3_p.py, ipeomccsdt.py, ipeomccsdt_p.py, ipeomccsdta.py.
* `ccpy/extcorr`: contractions_t3.py, contractions_t4.py, ecccp3.py.
* `ccpy/hbar`: hbar_cc4.py, hbar_ccsd_debug.py, hbar_ccsdt1.py, hbar_ccsdta.py.
* `ccpy/hbar/debug`: hbar_cc3_debug.py, hbar_ccsd_chol_debug.py, hbar_ccsd_debug.py, hbar_ccsdt_p_debug.py.
* `ccpy/interfaces`: pyscf_tools.py, qp2_tools.py.
* `ccpy/left`: left_cc3.py, left_ccsdt_p.py, left_ccsdt_p_slow.py, left_eaeom3_p.py, left_ipeom3_p.py.
* `ccpy/lib`: core.py.
* `ccpy/lib/fortran`: active_pspace.f90, antisymmetrizers.f90, cc3_loops.f90, cc4_loops.f90, cc_loops.f90, cc_loops_t4.f90, ccp3_full_correction.f90, ccp3_full_correction_high_mem.f90, ccp3_loops.f90, ccp3_opt_loops.f90, ccsdt_p_chol_loops.f90, cct3_loops.f90, constants.f90, crcc24_loops.f90, crcc24_opt_loops.f90, creacc_loops.f90, cripcc_loops.f90, deaeom4_p_intermediates.f90, deaeom4_p_loops.f90, eaccp3_correction.f90, eaccp3_loops.f90, eaeom3_p_intermediates.f90, eaeom3_p_loops.f90, ecccp3_loops.f90, eomcc_active_loops.f90, eomccp3_adaptive_loops.f90, eomccsdt_p_loops.f90, hbar_cc3.f90, hbar_ccsdt_p.f90, ipccp3_loops.f90, ipeom3_p_intermediates.f90, ipeom3_p_loops.f90, ipeomt_p_loops.f90, leftccsdt_p_intermediates.f90, leftccsdt_p_loops.f90, lefteaeom3_p_intermediates.f90, lefteaeom3_p_loops.f90, leftipeom3_p_intermediates.f90, leftipeom3_p_loops.f90, mbgf_loops.f90, mrcc_loops.f90.
* `ccpy/lib/fortran/backups`: cc3_loops-bak.f90, cc_active_loops-orig.f90, ccp3_adaptive_loops.f90, ccp_intermediates.f90, ccp_linear_loops.f90, ccp_linear_loops_omp.f90, ccp_loops.f90, ccp_matrix.f90, ccp_opt_loops.f90, ccp_opt_loops_v2.f90, ccp_opt_loops_v3.f90, ccp_quadratic_loops.f90, ccp_quadratic_loops_direct.f90, ccp_quadratic_loops_direct_031623-t3bpspacework.f90, ccp_quadratic_loops_direct_h-backup.f90, ccp_quadratic_loops_direct_h.f90, ccp_quadratic_loops_direct_opt-031623-t3boptcompelte.f90, ccp_quadratic_loops_direct_opt-3-15-2023-2.f90, ccp_quadratic_loops_direct_opt-3-15-2023.f90, ccp_quadratic_loops_direct_opt-h2b-vvvv-success.f90, ccp_quadratic_loops_direct_opt-h2bvvvv-try-v2.f90, ccp_quadratic_loops_direct_opt-h2bvvvv-try.f90, ccp_quadratic_loops_direct_opt-pre-intent-change.f90, ccp_quadratic_loops_omp.f90, ccsdt_p_loops-before-cache-opt.f90, einsum.f90, eomcc_initial_guess.f90, eomccsdt_p_loops.f90, hbar_matrix_elements.f90, slater.f90, sort_t3.f90.
* `ccpy/lib/sort`: qsort_module.f90.
* `ccpy/lrcc`: lrccsd.py, lrccsd_intermediates.py.
* `ccpy/mbpt`: mbgf.py.
* `ccpy/moments`: ccp3_bak.py, ccp3_chol.py, ccp4.py, cct3.py, cct3_chol.py, crcc23_chol.py, crcc24-old.py, crcc24.py, crcc34.py, creacc23.py, creomcc23_chol.py, cripcc23.py, dipeomccsdta_star.py, eaccp3.py, eaeomccsdta_star.py, eccc23.py, eomccsdta_star.py, ipccp3.py, ipeomccsdta_star.py.
* `ccpy/mrcc`: effective_hamiltonian.py, mkmrccsd.py.
* `ccpy/utilities`: printing.py.
<!-- end generated -->
