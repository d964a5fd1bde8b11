{"claims": [
{"property": "C01", "status": "proved", "theorems": ["C01_electron_accounting", "C01_inconsistent_parity_drops_electron"], "note": "constructor arithmetic over Z"},
{"property": "C02", "status": "proved", "theorems": ["C02_reference_symmetry", "C02_closed_shell_totally_symmetric", "C02_orbital_symmetries"], "note": "default occupation"},
{"property": "C03", "status": "proved", "theorems": ["C03_active_space_partition_alpha", "C03_active_space_partition_beta", "C03_beta_virtuals_refuted", "C03_full_active_space", "C03_same_window_for_both_spins"], "note": "beta unoccupied partition characterised; defect witnessed"},
{"property": "C04", "status": "proved", "theorems": ["C04_xor_is_irrep_product", "C04_group_laws"], "note": ""},
{"property": "C05", "status": "proved", "theorems": ["C05_count_singles", "C05_count_doubles", "C05_count_triples", "C05_count_1p", "C05_count_2p1h", "C05_count_3p2h"], "note": ""},
{"property": "C06", "status": "proved", "theorems": ["C06_roundtrip", "C06_vector", "C06_constructor", "C06_spin_cases", "C06_dense_shape", "C06_pspace_shape", "C06_active_shape"], "note": "any order, dense / P-space / active-space blocks; well-formed configurations (proper_config)"},
{"property": "C07", "status": "proved", "theorems": ["C07_empty_lists_lengthen_the_vector", "C07_empty_list_roundtrip_refuted", "C07_active_below_dense_refuted"], "note": "refuted round trips with witnesses; exact length formula with empty lists"},
{"property": "C08", "status": "proved", "theorems": ["C08_fock_roundtrip", "C08_fock_vector", "C08_fock_defined", "C08_triple_attachment_fails", "C08_spinflip_roundtrip", "C08_spinflip_vector"], "note": "num_add 1 and 2, any order; triple attachment shown to fail; spin flip orders 0..2 as supported by the constructor"},
{"property": "C09", "status": "proved", "theorems": ["C09_extend_keeps_amplitudes"], "note": "any sizes"},
{"property": "C10", "status": "proved", "theorems": ["C10_parity_is_sign", "C10_argument_is_sorted_in_place", "C10_exchange_flips_parity"], "note": ""},
{"property": "C11", "status": "proved", "theorems": ["C11_lineup"], "note": ""},
{"property": "C12", "status": "proved", "theorems": ["C12_holes_and_particles", "C12_rank", "C12_spincase", "C12_spatial_orbital"], "note": ""},
{"property": "C13", "status": "proved", "theorems": ["C13_active_triples", "C13_placeholder_unambiguous", "C13_active_3p2h", "C13_active_3h2p", "C13_active_4p2h"], "note": "six 4p2h/3p2h/3h2p/triples generators; placeholder row for empty results"},
{"property": "C14", "status": "proved", "theorems": ["C14_qspace_complement", "C14_out_of_range_label", "C14_partition", "C14_active_partition", "C14_active_q_rows"], "note": "list semantics of the Q-space complement; out-of-range labels characterised"},
{"property": "C15", "status": "proved", "theorems": ["C15_dense_triples", "C15_placeholder", "C15_unique"], "note": "four spin cases; uniqueness of the resulting array"},
{"property": "C16", "status": "proved", "theorems": ["C16_zeroing", "C16_antisymmetry_and_idempotence"], "note": "four zeroing loops; filling of blocks not modelled"},
{"property": "C17", "status": "proved", "theorems": ["C17_one_addition", "C17_unrestricted_additions", "C17_restricted_additions", "C17_history", "C17_prefix", "C17_restricted_invariant", "C17_ones_is_dropped"], "note": "Lists of a history of additions are the concatenation of the selected triples; spin-flip invariant for restricted references; counts by irrep. Looking up an orbital past the end of the symmetry list is not modelled."},
{"property": "C18", "status": "proved", "theorems": ["C18_outside_pspace", "C18_empty_pspace", "C18_single_triple_offered_again_refuted", "C18_selected_are_candidates", "C18_largest_kept", "C18_exact_when_it_fits", "C18_selection_adds_new_triples", "C18_full_buffer_drops_largest_refuted", "C18_unsorted_threshold_refuted"], "note": "The moment value of a triple is an arbitrary function (its formula is not modelled here). The two ways in which the selection misses larger moments, and the second offer of the only P-space triple of a spin case, are proved as refutations."},
{"property": "C19", "status": "proved", "theorems": ["C19_argsort", "C19_argsort_descending"], "note": "all lengths, ascending integer and descending real variants"},
{"property": "C20", "status": "proved", "theorems": ["C20_table3_range", "C20_ordered_triples", "C20_free_then_pair", "C20_pair_then_free", "C20_three_free", "C20_triple_and_free", "C20_two_pairs", "C20_pair_and_two_free", "C20_four_free", "C20_sort4_blocks", "C20_sort3_blocks", "C20_sort3_single_excitation_refuted", "C20_sort4_placeholder"], "note": "three- and four-index tables at the ranges used by the kernels; block lookup of sort3 and sort4; single-excitation defect of sort3 stated"},
{"property": "C21", "status": "proved", "theorems": ["C21_union", "C21_order_independent", "C21_placeholder_refuted"], "note": "union of P spaces; placeholder defect witnessed"},
{"property": "C22", "status": "proved", "theorems": ["C22_convergence_contract"], "note": ""},
{"property": "C23", "status": "proved", "theorems": ["C23_converged_energy", "C23_unconverged_energy_without_extrapolation", "C23_no_iterations", "C23_diis_energy_refuted"], "note": ""},
{"property": "C24", "status": "proved", "theorems": ["C24_history_window"], "note": ""},
{"property": "C25", "status": "proved", "theorems": ["C25_gauss_solves", "C25_coefficients_sum_to_one", "C25_minimal_residual", "C25_extrapolated_vector", "C25_fixed_point"], "note": ""},
{"property": "C26", "status": "proved", "theorems": ["C26_subspace", "C26_orthonormal", "C26_return", "C26_no_iterations"], "note": "Single-root Davidson driver over exact reals with the sigma build, update_r and eigen-solver as parameters; zero-norm division is an explicit None outcome."},
{"property": "C27", "status": "proved", "theorems": ["C27_storage", "C27_unconverged_fails", "C27_single_root", "C27_flags", "C27_subspace", "C27_index_error_refuted"], "note": "Block Davidson over exact reals with sigma build, update and eigen-solver as parameters; storage overflow is IndexError, zero-norm division is NaN. The overflow case is exhibited by C27_index_error_refuted."},
{"property": "C28", "status": "proved", "theorems": ["C28_gramschmidt", "C28_defined_iff_independent"], "note": "Gram-Schmidt over exact reals; zero-norm division is an explicit None outcome, characterised by linear independence."},
{"property": "C29", "status": "proved", "theorems": ["C29_tracked_diagonal", "C29_return", "C29_positive_semidefinite", "C29_rank_limit_refuted", "C29_shell_lookup", "C29_integral_blocks", "C29_integral_decomposition", "C29_buffer_refuted", "C29_pyscf_call_refuted"], "note": "Exact reals. get_diag/get_row and the integral engine are parameters; printing is left out except the format expression of line 214, which raises TypeError on every call of cholesky_eri_from_pyscf (C29_pyscf_call_refuted); C29_integral_decomposition is about the lines after the messages."},
{"property": "C30", "status": "proved", "theorems": ["C30_symmetry", "C30_values", "C30_loads"], "note": "Files are lists of parsed lines. C30_values names the value at <pq|rs>: that of the last line listing any of the eight forms of (pr|qs), zero without one, so for files without contradicting entries the representative listed does not matter."},
{"property": "C31", "status": "proved", "theorems": ["C31_deleted_orbitals_refuted", "C31_one_electron", "C31_orbital_energy_refuted"], "note": "C31_deleted_orbitals_refuted: with ndelete deleted orbitals any line with a label above norb - 2 ndelete is an IndexError. C31_one_electron: orbital-energy lines count as entries (i, norb); the witness file loses its (2,1) integral."},
{"property": "C32", "status": "proved", "theorems": ["C32_half_trace", "C32_unsorted", "C32_sorted", "C32_frozen_core", "C32_g_matrix", "C32_g_matrix_cholesky_refuted"], "note": "Exact reals. calc_khf_energy (k points) is not modelled."},
{"property": "C33", "status": "proved", "theorems": ["C33_antisymmetric", "C33_exchange_needed_refuted", "C33_uhf_antisymmetric", "C33_hamiltonian_antisymmetric", "C33_block_names", "C33_partition", "C33_sorted_blocks"], "note": "C33_partition is for any rank (name of any length); C33_sorted_blocks ties the four-index blocks used by the other theorems to it. C33_exchange_needed_refuted shows the exchange symmetry of the bare integrals is needed (C30 provides it for files)."},
{"property": "C34", "status": "proved", "theorems": ["C34_fock", "C34_hf_energy", "C34_blocks", "C34_one_body", "C34_blocks_set", "C34_batches"], "note": "The contraction is over any number of vectors; symmetry of the vectors is not needed."},
{"property": "C35", "status": "proved", "theorems": ["C35_rational_exact", "C35_others_refuted", "C35_quadratic_root", "C35_defined", "C35_no_triples", "C35_unknown_name"], "note": "C35_others_refuted gives a geometric series on which ccq and cccf miss the limit."},
{"property": "C36", "status": "proved", "theorems": ["C36_permutation_string", "C36_reorder_stripe", "C36_reorder_shift", "C36_sum_stripe", "C36_sum_shift", "C36_reorder4", "C36_sum4"], "note": "Sizes of the window dimensions positive for the shifted routines (size_outer divides by the first). Integers unbounded, reals exact."},
{"property": "C37", "status": "proved", "theorems": ["C37_permute", "C37_inverse_after_permute", "C37_permute_after_inverse"], "note": ""},
{"property": "C38", "status": "proved", "theorems": ["C38_binom_i", "C38_binom_r", "C38_out_of_range_refuted", "C38_factorial", "C38_factorial_combination"], "note": "binom_i with an explicit overflow check; C38_out_of_range_refuted: for n>m the functions return n+1, not 0. binom_r and factorial_combination_1 in exact reals."},
{"property": "C39", "status": "proved", "theorems": ["C39_visits_all", "C39_empty_selection"], "note": "1<=r<=n; for r=0 the routine writes outside the array (C39_empty_selection)."},
{"property": "C40", "status": "proved", "theorems": ["C40_trace_ccsd", "C40_trace_ccsdt", "C40_response", "C40_closed_shell"], "note": "Traces for orders 2 and 3 without any hypothesis on T and L; response theorem (derivative of the Lagrangian w.r.t. any one-body perturbation) for order 2; alpha = beta for closed shells, orders 2 and 3."},
{"property": "C41", "status": "proved", "theorems": ["C41_density_of_last_state", "C41_initial", "C41_own_density_refuted"], "note": "Driver table as a heap of row objects shared by [[None]*n]*n; characterisation of every entry after run_rdm1 plus refutation of per-state storage."},
{"property": "C42", "status": "proved", "theorems": ["C42_rel_bounds", "C42_rel_limits", "C42_rel_ea_bounds", "C42_rel_ip_bounds", "C42_rel_scale_invariant"], "note": "Exact reals; the denominator is assumed non-zero (for excited states this follows from one non-zero amplitude or r0). Also: limiting values for pure reference, singles and doubles states and independence of normalisation."},
{"property": "C43", "status": "proved", "theorems": ["C43_overlap", "C43_misaligned_raises", "C43_overlap_ea", "C43_overlap_ip", "C43_ip_abb_refuted"], "note": "All four spin cases for particle-conserving states and all three for electron-attached ones. For ionised states the abb case is excluded: its dense conversion is broken (C57); C43_ip_abb_refuted shows half the overlap is lost there. Empty cases (placeholder row) are covered provided one of the two placeholder amplitudes is zero. Lists of different length raise."},
{"property": "C44", "status": "proved", "theorems": ["C44_cis", "C44_closed_shell", "C44_symmetry", "C44_one_hole", "C44_one_particle", "C44_one_particle_refuted", "C44_two_particles", "C44_two_particles_refuted", "C44_two_holes", "C44_two_holes_refuted", "C44_spin_flip", "C44_spin_flip_refuted"], "note": "C44_cis: the singles matrix equals the matrix of S^2 (second-quantised definition, with signs) for all electron counts. C44_closed_shell: singlets -> 0, triplets -> 2, no other eigenvalue. C44_symmetry: the index-array version. C44_one_hole exact. C44_one_particle/C44_two_particles/C44_two_holes/C44_spin_flip: exact difference from S^2; the _refuted theorems show open-shell systems where the code's value is wrong (get_sz2_ea uses (sz-1)sz; the two-particle diagonal tests the alpha particle instead of the beta one; the two-hole matrix omits Sz(Sz+1); spin-flip diagonal omits hole and particle terms). Not modelled: the diagonalisation and the eigenvalue selection (spin_adapt_guess)."},
{"property": "C45", "status": "proved", "theorems": ["C45_cisd_layout", "C45_active_excitations", "C45_cisd_dimension", "C45_cisd_indices", "C45_cisd_index_arrays", "C45_attached", "C45_ionized", "C45_ea_ip_excitations", "C45_two_particles", "C45_two_holes", "C45_two_particles_refuted", "C45_two_holes_refuted", "C45_selection", "C45_no_symmetry_repeats"], "note": "Layout, dimension and index/scatter agreement proved for CISd, EA and IP guesses. For DEA/DIP guesses proved for singlet references; C45_two_particles_refuted and C45_two_holes_refuted show that with an open-shell reference the scatter ignores the enlarged active space of the matrix. C45_no_symmetry_repeats: with symmetry off, several requested irreps return duplicated roots."},
{"property": "C46", "status": "proved", "theorems": ["C46_steps_follow_percentages", "C46_total", "C46_nonnegative", "C46_rhf_halves", "C46_hundred_twice_refuted", "C46_decreasing_refuted", "C46_fixed_growth"], "note": "excitation_count over rationals; int(0.01*total) modelled as the exact floor (stated in the model)."},
{"property": "C47", "status": "proved", "theorems": ["C47_stops", "C47_never_raises", "C47_hamiltonians", "C47_pspace", "C47_pspace_grows", "C47_percentage", "C47_left_transformed", "C47_second_run_refuted", "C47_maximum_iterations_refuted"], "note": "run() of AdaptDriver on top of the driver state machine of C48 and the selection model of C17; Cholesky path and the EOM/EA/IP adaptive drivers not modelled."},
{"property": "C48", "status": "proved", "theorems": ["C48_needs_hbar", "C48_eomccp_refuted", "C48_ccsdpt_bare", "C48_ccsdpt_interrupted_refuted", "C48_bare_without_hbar", "C48_no_way_back", "C48_repeat_refuted", "C48_rhf_sticky", "C48_cc3_sticky", "C48_cct3_strips", "C48_ccp3_list_raises", "C48_ccp3_repeats", "C48_unknown_correction_silent", "C48_cct3_ground_refuted", "C48_correction_recorded", "C48_ccp3_recorded", "C48_fock_shapes", "C48_fockp_shapes", "C48_eom_shapes", "C48_sf_shape_refuted", "C48_vectors_kept", "C48_second_method_refuted"], "note": "Whole of driver.py's run_* methods as a state machine over provenance of the Hamiltonian, operator shapes and options; numerical routines opaque with a return/raise flag. The workflow guarantees are proved for all sessions; where the code does not guarantee what a user expects (run_eomccp unguarded, interrupted run_hbar, repeated run_cc/run_hbar, spin-flip rank, second method on old vectors, cct3 ground state) the exact behaviour is proved together with a reachable witness (_refuted)."},
{"property": "C49", "status": "proved", "theorems": ["C49_one_description", "C49_triples_exact", "C49_quadruples_exact", "C49_listed_determined", "C49_rest_ignored_refuted", "C49_wrong_spin_raises", "C49_qmc_exact", "C49_qmc_spin_refuted"], "note": "Non-integer tokens and printing are not modelled. The exactness theorems assume every line is a determinant of the system; the early stop is proved for closed shells."},
{"property": "C50", "status": "proved", "theorems": ["C50_excitation", "C50_hermitian", "C50_slater_condon", "C50_one_electron_raises_refuted", "C50_roundtrip_refuted", "C50_open_shell_raises_refuted", "C50_accepts", "C50_excitation_accepts", "C50_nonexistent_orbital_refuted"], "note": "ccpy/models/hilbert.py. Bit strings, printing, multiplicity and irrep labels of the objects not modelled; the irrep lookup raising for an orbital outside the system is."},
{"property": "C51", "status": "proved", "theorems": ["C51_ccsd_fixed_point", "C51_update_antisym", "C51_update_value", "C51_left_fixed_point"], "note": "Loops of cc_loops2.f90 as sequences of array writes; CCSD residuals and left-CCSD totals generated from the Python sources. Antisymmetry for any input; fixed point iff residual zero (CCSD) and iff L solves the left equations (left CCSD), given non-zero denominators."},
{"property": "C52", "status": "proved", "theorems": ["C52_ccsd_converged", "C52_ccd_converged", "C52_hbar", "C52_hbar_closed", "C52_right_product", "C52_left_product", "C52_left_iterations", "C52_ccsd_iterates_refuted", "C52_ccd_exchange_refuted"], "note": "Converged solutions, Hbar, HR/LH and all left iterates agree with and without flag_RHF for closed shells (all sizes). Iterate-by-iterate agreement of the ground-state sweep is refuted by C52_ccsd_iterates_refuted and C52_ccd_exchange_refuted: the sweep overwrites amplitudes in place."},
{"property": "C53", "status": "proved", "theorems": ["C53_ci_is_exp", "C53_unique", "C53_returns_T", "C53_energy", "C53_order4", "C53_zero_refuted"], "note": "The cluster operator exists (C53_ci_is_exp), is unique (C53_unique) and is what the analysis returns at nonzero coefficients (C53_returns_T); energies agree when no doubles amplitude is dropped (C53_energy); C53_zero_refuted is the wave function where the drop changes the energy; order > 3 calls a routine that does not exist (C53_order4)."},
{"property": "C54", "status": "proved", "theorems": ["C54_excited_state", "C54_default_root_is_last", "C54_other_types", "C54_ground_state", "C54_ground_state_open_refuted", "C54_short_file"], "note": "C54_excited_state, C54_other_types, C54_ground_state (closed shell): reading inverts the documented layout. C54_default_root_is_last: with amp_type R and the default iroot=0 Python's negative index selects the last state. C54_ground_state_open_refuted: for noa > nob the ground-state reader raises on every file because the loops over the ab block store into bb. C54_short_file. The file parsing (FortranFile, np.fromfile) is outside the model."},
{"property": "C55", "status": "proved", "theorems": ["C55_left_vector_biorthonormal", "C55_reported_overlap", "C55_reported_overlap_refuted"], "note": ""},
{"property": "C56", "status": "proved", "theorems": ["C56_nonlinear_converged"], "note": ""},
{"property": "C57", "status": "proved", "theorems": ["C57_dense_3p2h", "C57_dense_3h2p", "C57_3h2p_abb_refuted"], "note": "3h2p abb defect characterised"},
{"property": "C58", "status": "proved", "theorems": ["C58_rearrangement", "C58_follows_target"], "note": ""},
{"property": "C59", "status": "proved", "theorems": ["C59_onebody", "C59_twobody", "C59_roundtrip_refuted"], "note": "rnd is the rounding by the print format (any function). C59_roundtrip_refuted: an 8-fold symmetric physicists'-order array comes back different."},
{"property": "C60", "status": "proved", "theorems": ["C60_shift_normal_order_refuted"], "note": "numpy's advanced-indexing rule (lists broadcast together into one axis) is part of the model."},
{"property": "C61", "status": "proved", "theorems": ["C61_adjoint", "C61_biorthogonal"], "note": "flag_RHF = False branch; T, L, R and the same-spin Hamiltonian blocks antisymmetric"},
{"property": "C62", "status": "proved", "theorems": ["C62_jacobian", "C62_energy_gradient", "C62_lagrangian", "C62_lambda_stationary"], "note": "Jacobian, energy gradient, Lagrangian gradient and stationarity, as real derivatives along every line in amplitude space. flag_RHF=False path; einsum terms reified from source text."},
{"property": "C63", "status": "proved", "theorems": ["C63_terminates", "C63_energy", "C63_residual", "C63_schroedinger", "C63_fixed_point", "C63_textbook", "C63_arrays", "C63_reference_energy", "C63_ccsd"], "note": "From second quantisation up: nothing in FockSpec.v/FockCcSpec.v refers to the program. C63_ccsd is the whole chain (molecular integrals with frozen core to fixed points of the iteration and total energy). The frozen-core one-electron operator (valence) is part of the specification. Exact reals; amplitudes antisymmetric for all indices."},
{"property": "C64", "status": "proved", "theorems": ["C64_schroedinger", "C64_root", "C64_sigma", "C64_eomccsd"], "note": "Right EOMCCSD only, for spin-conserving excitations (IP/EA and triples not covered). r0 through get_r0. T must be converged: for other T the sigma vector is not a projection of (H - E) R exp(T)|ref>. Exact reals; amplitudes antisymmetric for all indices. Left eigenvectors follow through C61_adjoint."},
{"property": "C65", "status": "proved", "theorems": ["C65_amplitudes_general", "C65_closed_shell", "C65_one_unpaired_electron", "C65_missing_reference", "C65_unknown_orbital_ends_reading", "C65_open_shell_refuted"], "note": "General theorem with the explicit sign misphase; equals 1 for closed shells (C65_closed_shell), (-1)^rank for one unpaired electron (C65_one_unpaired_electron); C65_open_shell_refuted gives a wave function with two unpaired electrons where one single is right and another has the wrong sign. Also: missing reference raises, unknown orbital ends the reading silently."},
{"property": "C66", "status": "proved", "theorems": ["C66_sigma", "C66_schroedinger", "C66_antisym", "C66_chain"], "note": "On top of CCSD; alpha/primary spin component as in the code; T converged for the root theorem, any T for the sigma theorem. Exact reals; amplitudes antisymmetric for all indices. The iterative diagonalisation is C-series elsewhere."},
{"property": "C67", "status": "proved", "theorems": ["C67_sigma", "C67_schroedinger", "C67_antisym", "C67_chain"], "note": "On top of CCSD; alpha/primary spin component as in the code; T converged for the root theorem, any T for the sigma theorem. Exact reals; amplitudes antisymmetric for all indices. The iterative diagonalisation is C-series elsewhere."},
{"property": "C68", "status": "proved", "theorems": ["C68_sigma", "C68_schroedinger", "C68_antisym", "C68_chain"], "note": "On top of CCSD; alpha/primary spin component as in the code; T converged for the root theorem, any T for the sigma theorem. Exact reals; amplitudes antisymmetric for all indices. The iterative diagonalisation is C-series elsewhere."},
{"property": "C69", "status": "proved", "theorems": ["C69_sigma", "C69_schroedinger", "C69_antisym", "C69_chain"], "note": "On top of CCSD; alpha/primary spin component as in the code; T converged for the root theorem, any T for the sigma theorem. Exact reals; amplitudes antisymmetric for all indices. The iterative diagonalisation is C-series elsewhere. flag_RHF = False branch."},
{"property": "C70", "status": "proved", "theorems": ["C70_sigma_2p", "C70_schroedinger_2p", "C70_chain_2p", "C70_sigma", "C70_schroedinger", "C70_antisym", "C70_chain"], "note": "On top of CCSD; alpha/primary spin component as in the code; T converged for the root theorem, any T for the sigma theorem. Exact reals; amplitudes antisymmetric for all indices. The iterative diagonalisation is C-series elsewhere. flag_RHF = False branch."},
{"property": "C71", "status": "proved", "theorems": ["C71_sigma", "C71_schroedinger", "C71_antisym", "C71_chain"], "note": "On top of CCSD; alpha/primary spin component as in the code; T converged for the root theorem, any T for the sigma theorem. Exact reals; amplitudes antisymmetric for all indices. The iterative diagonalisation is C-series elsewhere. The sigma vector only; the FockOperator of the code has no arrays for three attached electrons."},
{"property": "C72", "status": "proved", "theorems": ["C72_ip_adjoint", "C72_ip_adjoint_hbar", "C72_ip_biorthogonal", "C72_ea_adjoint", "C72_ea_adjoint_hbar", "C72_ea_biorthogonal"], "note": "Scalar product with weight 1/2 for the antisymmetric block. The hbar versions need only the blocks the program builds."},
{"property": "C73", "status": "proved", "theorems": ["C73_dressed", "C73_hbar", "C73_energy", "C73_residual"], "note": "T1-dressed integrals (FockDress.v) characterised by C73_dressed. Blocks compared inside their dimensions; blocks build_hbar_ccsd leaves untouched other than oovv are not covered. Exact reals."},
{"property": "C74", "status": "proved", "theorems": ["C74_schroedinger", "C74_antisym", "C74_chain"], "note": "On top of converged CCSD; spin component as in the code; amplitudes antisymmetric for all indices; exact reals. The series for exp(T) is cut after m >= noa+nob+4 powers, where it has ended (C63_terminates)."},
{"property": "C75", "status": "proved", "theorems": ["C75_schroedinger", "C75_antisym", "C75_chain"], "note": "On top of converged CCSD; spin component as in the code; amplitudes antisymmetric for all indices; exact reals. The series for exp(T) is cut after m >= noa+nob+4 powers, where it has ended (C63_terminates)."},
{"property": "C76", "status": "proved", "theorems": ["C76_schroedinger", "C76_antisym", "C76_chain"], "note": "On top of converged CCSD; spin component as in the code; amplitudes antisymmetric for all indices; exact reals. The series for exp(T) is cut after m >= noa+nob+4 powers, where it has ended (C63_terminates). flag_RHF = False branch."},
{"property": "C77", "status": "proved", "theorems": ["C77_schroedinger", "C77_antisym", "C77_chain"], "note": "On top of converged CCSD; spin component as in the code; amplitudes antisymmetric for all indices; exact reals. The series for exp(T) is cut after m >= noa+nob+4 powers, where it has ended (C63_terminates). flag_RHF = False branch."},
{"property": "C78", "status": "proved", "theorems": ["C78_doubles", "C78_corrected", "C78_antisym", "C78_refuted"], "note": "The program's triples are refuted (C78_refuted: a root 7/3 where the Schroedinger equation has 2); C78_corrected is about the program with the eleven terms listed in SpinFlip3Fixed.v changed; C78_doubles says the singles and doubles parts need no change. Same restrictions as C74."},
{"property": "C79", "status": "proved", "theorems": ["C79_iteration", "C79_update_same_spin", "C79_update_mixed_spin", "C79_terminates", "C79_energy", "C79_schroedinger", "C79_fixed_point", "C79_ccsdt"], "note": "Proved for every size and spin case from the molecular integrals on: CCSDT fixed points (regular denominators) are the solutions of the projected Schroedinger equation up to triples, the energy is its energy, the update loops are characterised cell by cell. The RHF shortcut (flag_RHF) and DIIS are not part of this claim; rounding is not modelled."},
{"property": "C80", "status": "proved", "theorems": ["C80_closed_shell", "C80_moments", "C80_left", "C80_denominators", "C80_energy", "C80_correction", "C80_orbital_denominators"], "note": "For all dimensions, exchangeable integrals, antisymmetric T and L: moments, left triples amplitudes and variant-D denominators of the program are the matrix elements of exp(-T)H exp(T) written with second-quantised operators; the returned variant-D energy is E plus the sum over all triply excited determinants; variants A and B have the same numerators over differences of diagonal Fock / one-body Hbar elements. Variant C is modelled but its denominators are not characterised; C80_closed_shell: use_RHF returns the same four energies for closed shells. H is the CCSD Hbar of the model (hbar_ccsd), T and L need not solve their equations."},
{"property": "C81", "status": "proved", "theorems": ["C81_moments", "C81_left", "C81_correction", "C81_closed_shell"], "note": "C81_moments, C81_left: the arrays the kernels build are matrix elements with triply excited determinants. C81_correction: the returned energy. C81_closed_shell: use_RHF. Finding: the docstring says every term with a Fock block is ignored, the code keeps the occupied-unoccupied Fock block in the left factor (as the exact expression requires). Real orbitals are needed: the code uses one array for <pq|rs> and <rs|pq>. The array vC_vvov_4213 of ccsdptC_opt is declared with noa where nob is meant; the model indexes it within the range that is written."},
{"property": "C82", "status": "proved", "theorems": ["C82_moments", "C82_eom_moments", "C82_left", "C82_correction", "C82_ddelta", "C82_orbital_denominators", "C82_closed_shell"], "note": "variants A, B and D; variant C's denominators (two-body diagonal without the three-body part) are modelled and shown spin-symmetric but not given an operator meaning; printing and the unused x3_aaa storage are not modelled; arithmetic over the reals"},
{"property": "C83", "status": "proved", "theorems": ["C83_contraction", "C83_hamiltonian", "C83_residual", "C83_fixed_point", "C83_ccsd", "C83_closed_shell"], "note": "Residuals, fixed points and energies. A single Cholesky iteration is not the dense iteration: update_t2b reads the voov intermediate built half before and half after the T2a update, so only converged results are compared. L is arbitrary; the decomposition that produces it is the subject of its own property (CholeskyProps.v). Rounding is not modelled."},
{"property": "C84", "status": "proved", "theorems": ["C84_hbar", "C84_right", "C84_left", "C84_eomccsd", "C84_closed_shell"], "note": "All terms of the three routines, for every system size; RHF branches included (C84_closed_shell). The blocks that the Cholesky Hbar routine does not provide are left arbitrary in C84_right and C84_left. Rounding is not modelled, nor the Davidson solver on top (C26, C64)."},
{"property": "C85", "status": "proved", "theorems": ["C85_jacobian", "C85_energy_gradient", "C85_antisymmetric", "C85_eigenvector", "C85_state", "C85_eomccsdt"], "note": "All terms for every system size, from the molecular integrals on. Not modelled: the flag_RHF copies, the Davidson solver above HR (C26, C64), rounding. build_hbar_ccsdt works in place on the caller's Hamiltonian; the model returns the final values."},
{"property": "C86", "status": "proved", "theorems": ["C86_fixed_point", "C86_projections", "C86_converged", "C86_eomcc2_jacobian", "C86_closed_shell", "C86_closed_shell_refuted", "C86_eomcc2_jacobian_refuted"], "note": "The residual and the fixed points are proved for the unrestricted iteration. With flag_RHF the claim is false (C86_closed_shell states exactly when it holds, C86_closed_shell_refuted gives a case): get_ccs_intermediates_opt makes X.bb.vvov the same array as X.aa.vvov and cc2.py adds the vvvv term to both in place. EOMCC2 is not the CC2 Jacobian in the doubles block (C86_eomcc2_jacobian, C86_eomcc2_jacobian_refuted). Not modelled: the flag_RHF copies of HR, the Davidson solver above HR (C26), rounding."},
{"property": "C87", "status": "proved", "theorems": ["C87_zeroth_order", "C87_first_order", "C87_mp2", "C87_mp3"], "note": "mp2 and mp3 loops and their callers, for every shape and any exchange-symmetric integrals; the first-order equation is on the determinants up to double excitations (`near`), the only ones either side can reach. mp3 never initialises Emp3 (intent(out)); the model starts it at 0 as f2py creates it. Not modelled: mp4 (marked as wrong in the source), run_mbpt's printing, rounding."},
{"property": "C88", "status": "proved", "theorems": ["C88_ip_adjoint", "C88_ip_adjoint_hbar", "C88_ip_biorthogonal", "C88_ip_antisym", "C88_ea_adjoint", "C88_ea_adjoint_hbar", "C88_ea_biorthogonal", "C88_ea_antisym"], "note": "For every H with the antisymmetries of a two-body operator, in particular for the output of hbar_ccsd. The eigenvector statements are for exact roots. Not modelled: update_l (the same loop as the right update, C26), the active-space (_p) variants, rounding."},
{"property": "C89", "status": "proved", "theorems": ["C89_fixed_point", "C89_lambda_stationary", "C89_roots_orthogonal", "C89_shift_exists", "C89_adjoint", "C89_adjoint_hbar", "C89_antisymmetric", "C89_biorthogonal", "C89_lagrangian", "C89_stationary"], "note": "For every H with the antisymmetries of a two-body operator, in particular for the output of hbar_ccsdt. Not modelled: the flag_RHF copies, the outer iteration and DIIS of the left solver (C24, C26), update_l for the Davidson variant, rounding; a zero denominator is excluded by hypothesis and C89_shift_exists shows the hypothesis can be met."},
{"property": "C90", "status": "proved", "theorems": ["C90_hbar", "C90_hbar_closed", "C90_right_vector", "C90_residual_singlet", "C90_iterate_copies", "C90_converged", "C90_schroedinger"], "note": "Fixed points, not the iterates: intermediate iterates with flag_RHF are not compared (C52_ccsd_iterates_refuted shows they differ for CCSD). The left vectors with flag_RHF are not covered."}
]}
