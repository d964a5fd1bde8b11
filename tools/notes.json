{
 "C01": {
  "note": "constructor arithmetic over Z"
 },
 "C02": {
  "note": "default occupation"
 },
 "C03": {
  "note": "beta unoccupied partition characterised; defect witnessed"
 },
 "C06": {
  "note": "any order, dense / P-space / active-space blocks; well-formed configurations (proper_config)"
 },
 "C07": {
  "note": "refuted round trips with witnesses; exact length formula with empty lists"
 },
 "C08": {
  "note": "num_add 1 and 2, any order; triple attachment shown to fail; spin flip orders 0..2 as supported by the constructor"
 },
 "C09": {
  "note": "any sizes"
 },
 "C10": {
  "note": ""
 },
 "C11": {
  "note": ""
 },
 "C12": {
  "note": ""
 },
 "C13": {
  "note": "six 4p2h/3p2h/3h2p/triples generators; placeholder row for empty results"
 },
 "C14": {
  "note": "list semantics of the Q-space complement; out-of-range labels characterised"
 },
 "C15": {
  "note": "four spin cases; uniqueness of the resulting array"
 },
 "C16": {
  "note": "four zeroing loops; filling of blocks not modelled"
 },
 "C17": {
  "note": "Lists of a history of additions are the concatenation of the selected triples; spin-flip invariant for restricted references; counts by irrep. Looking up an orbital past the end of the symmetry list is not modelled."
 },
 "C18": {
  "note": "The moment value of a triple is an arbitrary function (its formula is not modelled here). The two ways in which the selection misses larger moments, and the second offer of the only P-space triple of a spin case, are proved as refutations."
 },
 "C19": {
  "note": "all lengths, ascending integer and descending real variants"
 },
 "C20": {
  "note": "three- and four-index tables at the ranges used by the kernels; block lookup of sort3 and sort4; single-excitation defect of sort3 stated"
 },
 "C21": {
  "note": "union of P spaces; placeholder defect witnessed"
 },
 "C26": {
  "note": "Single-root Davidson driver over exact reals with the sigma build, update_r and eigen-solver as parameters; zero-norm division is an explicit None outcome."
 },
 "C27": {
  "note": "Block Davidson over exact reals with sigma build, update and eigen-solver as parameters; storage overflow is IndexError, zero-norm division is NaN. The overflow case is exhibited by C27_index_error_refuted."
 },
 "C28": {
  "note": "Gram-Schmidt over exact reals; zero-norm division is an explicit None outcome, characterised by linear independence."
 },
 "C29": {
  "note": "Exact reals. get_diag/get_row and the integral engine are parameters; printing is left out except the format expression of line 214, which raises TypeError on every call of cholesky_eri_from_pyscf (C29_pyscf_call_refuted); C29_integral_decomposition is about the lines after the messages."
 },
 "C30": {
  "note": "Files are lists of parsed lines. C30_values names the value at <pq|rs>: that of the last line listing any of the eight forms of (pr|qs), zero without one, so for files without contradicting entries the representative listed does not matter."
 },
 "C31": {
  "note": "C31_deleted_orbitals_refuted: with ndelete deleted orbitals any line with a label above norb - 2 ndelete is an IndexError. C31_one_electron: orbital-energy lines count as entries (i, norb); the witness file loses its (2,1) integral."
 },
 "C32": {
  "note": "Exact reals. calc_khf_energy (k points) is not modelled."
 },
 "C33": {
  "note": "C33_partition is for any rank (name of any length); C33_sorted_blocks ties the four-index blocks used by the other theorems to it. C33_exchange_needed_refuted shows the exchange symmetry of the bare integrals is needed (C30 provides it for files)."
 },
 "C34": {
  "note": "The contraction is over any number of vectors; symmetry of the vectors is not needed."
 },
 "C35": {
  "note": "C35_others_refuted gives a geometric series on which ccq and cccf miss the limit."
 },
 "C36": {
  "note": "Sizes of the window dimensions positive for the shifted routines (size_outer divides by the first). Integers unbounded, reals exact."
 },
 "C38": {
  "note": "binom_i with an explicit overflow check; C38_out_of_range_refuted: for n>m the functions return n+1, not 0. binom_r and factorial_combination_1 in exact reals."
 },
 "C39": {
  "note": "1<=r<=n; for r=0 the routine writes outside the array (C39_empty_selection)."
 },
 "C40": {
  "note": "Traces for orders 2 and 3 without any hypothesis on T and L; response theorem (derivative of the Lagrangian w.r.t. any one-body perturbation) for order 2; alpha = beta for closed shells, orders 2 and 3."
 },
 "C41": {
  "note": "Driver table as a heap of row objects shared by [[None]*n]*n; characterisation of every entry after run_rdm1 plus refutation of per-state storage."
 },
 "C42": {
  "note": "Exact reals; the denominator is assumed non-zero (for excited states this follows from one non-zero amplitude or r0). Also: limiting values for pure reference, singles and doubles states and independence of normalisation."
 },
 "C43": {
  "note": "All four spin cases for particle-conserving states and all three for electron-attached ones. For ionised states the abb case is excluded: its dense conversion is broken (C57); C43_ip_abb_refuted shows half the overlap is lost there. Empty cases (placeholder row) are covered provided one of the two placeholder amplitudes is zero. Lists of different length raise."
 },
 "C44": {
  "note": "C44_cis: the singles matrix equals the matrix of S^2 (second-quantised definition, with signs) for all electron counts. C44_closed_shell: singlets -> 0, triplets -> 2, no other eigenvalue. C44_symmetry: the index-array version. C44_one_hole exact. C44_one_particle/C44_two_particles/C44_two_holes/C44_spin_flip: exact difference from S^2; the _refuted theorems show open-shell systems where the code's value is wrong (get_sz2_ea uses (sz-1)sz; the two-particle diagonal tests the alpha particle instead of the beta one; the two-hole matrix omits Sz(Sz+1); spin-flip diagonal omits hole and particle terms). Not modelled: the diagonalisation and the eigenvalue selection (spin_adapt_guess)."
 },
 "C45": {
  "note": "Layout, dimension and index/scatter agreement proved for CISd, EA and IP guesses. For DEA/DIP guesses proved for singlet references; C45_two_particles_refuted and C45_two_holes_refuted show that with an open-shell reference the scatter ignores the enlarged active space of the matrix. C45_no_symmetry_repeats: with symmetry off, several requested irreps return duplicated roots."
 },
 "C46": {
  "note": "excitation_count over rationals; int(0.01*total) modelled as the exact floor (stated in the model)."
 },
 "C47": {
  "note": "run() of AdaptDriver on top of the driver state machine of C48 and the selection model of C17; Cholesky path and the EOM/EA/IP adaptive drivers not modelled."
 },
 "C48": {
  "note": "Whole of driver.py's run_* methods as a state machine over provenance of the Hamiltonian, operator shapes and options; numerical routines opaque with a return/raise flag. The workflow guarantees are proved for all sessions; where the code does not guarantee what a user expects (run_eomccp unguarded, interrupted run_hbar, repeated run_cc/run_hbar, spin-flip rank, second method on old vectors, cct3 ground state) the exact behaviour is proved together with a reachable witness (_refuted)."
 },
 "C49": {
  "note": "Non-integer tokens and printing are not modelled. The exactness theorems assume every line is a determinant of the system; the early stop is proved for closed shells."
 },
 "C50": {
  "note": "ccpy/models/hilbert.py. Bit strings, printing, multiplicity and irrep labels of the objects not modelled; the irrep lookup raising for an orbital outside the system is."
 },
 "C51": {
  "note": "Loops of cc_loops2.f90 as sequences of array writes; CCSD residuals and left-CCSD totals generated from the Python sources. Antisymmetry for any input; fixed point iff residual zero (CCSD) and iff L solves the left equations (left CCSD), given non-zero denominators."
 },
 "C52": {
  "note": "Converged solutions, Hbar, HR/LH and all left iterates agree with and without flag_RHF for closed shells (all sizes). Iterate-by-iterate agreement of the ground-state sweep is refuted by C52_ccsd_iterates_refuted and C52_ccd_exchange_refuted: the sweep overwrites amplitudes in place."
 },
 "C53": {
  "note": "The cluster operator exists (C53_ci_is_exp), is unique (C53_unique) and is what the analysis returns at nonzero coefficients (C53_returns_T); energies agree when no doubles amplitude is dropped (C53_energy); C53_zero_refuted is the wave function where the drop changes the energy; order > 3 calls a routine that does not exist (C53_order4)."
 },
 "C54": {
  "note": "C54_excited_state, C54_other_types, C54_ground_state (closed shell): reading inverts the documented layout. C54_default_root_is_last: with amp_type R and the default iroot=0 Python's negative index selects the last state. C54_ground_state_open_refuted: for noa > nob the ground-state reader raises on every file because the loops over the ab block store into bb. C54_short_file. The file parsing (FortranFile, np.fromfile) is outside the model."
 },
 "C57": {
  "note": "3h2p abb defect characterised"
 },
 "C59": {
  "note": "rnd is the rounding by the print format (any function). C59_roundtrip_refuted: an 8-fold symmetric physicists'-order array comes back different."
 },
 "C60": {
  "note": "numpy's advanced-indexing rule (lists broadcast together into one axis) is part of the model."
 },
 "C61": {
  "note": "flag_RHF = False branch; T, L, R and the same-spin Hamiltonian blocks antisymmetric"
 },
 "C62": {
  "note": "Jacobian, energy gradient, Lagrangian gradient and stationarity, as real derivatives along every line in amplitude space. flag_RHF=False path; einsum terms reified from source text."
 },
 "C63": {
  "note": "From second quantisation up: nothing in FockSpec.v/FockCcSpec.v refers to the program. C63_ccsd is the whole chain (molecular integrals with frozen core to fixed points of the iteration and total energy). The frozen-core one-electron operator (valence) is part of the specification. Exact reals; amplitudes antisymmetric for all indices."
 },
 "C64": {
  "note": "Right EOMCCSD only, for spin-conserving excitations (IP/EA and triples not covered). r0 through get_r0. T must be converged: for other T the sigma vector is not a projection of (H - E) R exp(T)|ref>. Exact reals; amplitudes antisymmetric for all indices. Left eigenvectors follow through C61_adjoint."
 },
 "C65": {
  "note": "General theorem with the explicit sign misphase; equals 1 for closed shells (C65_closed_shell), (-1)^rank for one unpaired electron (C65_one_unpaired_electron); C65_open_shell_refuted gives a wave function with two unpaired electrons where one single is right and another has the wrong sign. Also: missing reference raises, unknown orbital ends the reading silently."
 },
 "C66": {
  "note": "On top of CCSD; alpha/primary spin component as in the code; T converged for the root theorem, any T for the sigma theorem. Exact reals; amplitudes antisymmetric for all indices. The iterative diagonalisation is C-series elsewhere."
 },
 "C67": {
  "note": "On top of CCSD; alpha/primary spin component as in the code; T converged for the root theorem, any T for the sigma theorem. Exact reals; amplitudes antisymmetric for all indices. The iterative diagonalisation is C-series elsewhere."
 },
 "C68": {
  "note": "On top of CCSD; alpha/primary spin component as in the code; T converged for the root theorem, any T for the sigma theorem. Exact reals; amplitudes antisymmetric for all indices. The iterative diagonalisation is C-series elsewhere."
 },
 "C69": {
  "note": "On top of CCSD; alpha/primary spin component as in the code; T converged for the root theorem, any T for the sigma theorem. Exact reals; amplitudes antisymmetric for all indices. The iterative diagonalisation is C-series elsewhere. flag_RHF = False branch."
 },
 "C70": {
  "note": "On top of CCSD; alpha/primary spin component as in the code; T converged for the root theorem, any T for the sigma theorem. Exact reals; amplitudes antisymmetric for all indices. The iterative diagonalisation is C-series elsewhere. flag_RHF = False branch."
 },
 "C71": {
  "note": "On top of CCSD; alpha/primary spin component as in the code; T converged for the root theorem, any T for the sigma theorem. Exact reals; amplitudes antisymmetric for all indices. The iterative diagonalisation is C-series elsewhere. The sigma vector only; the FockOperator of the code has no arrays for three attached electrons."
 },
 "C72": {
  "note": "Scalar product with weight 1/2 for the antisymmetric block. The hbar versions need only the blocks the program builds."
 },
 "C73": {
  "note": "T1-dressed integrals (FockDress.v) characterised by C73_dressed. Blocks compared inside their dimensions; blocks build_hbar_ccsd leaves untouched other than oovv are not covered. Exact reals."
 },
 "C74": {
  "note": "On top of converged CCSD; spin component as in the code; amplitudes antisymmetric for all indices; exact reals. The series for exp(T) is cut after m >= noa+nob+4 powers, where it has ended (C63_terminates)."
 },
 "C75": {
  "note": "On top of converged CCSD; spin component as in the code; amplitudes antisymmetric for all indices; exact reals. The series for exp(T) is cut after m >= noa+nob+4 powers, where it has ended (C63_terminates)."
 },
 "C76": {
  "note": "On top of converged CCSD; spin component as in the code; amplitudes antisymmetric for all indices; exact reals. The series for exp(T) is cut after m >= noa+nob+4 powers, where it has ended (C63_terminates). flag_RHF = False branch."
 },
 "C77": {
  "note": "On top of converged CCSD; spin component as in the code; amplitudes antisymmetric for all indices; exact reals. The series for exp(T) is cut after m >= noa+nob+4 powers, where it has ended (C63_terminates). flag_RHF = False branch."
 },
 "C78": {
  "note": "The program's triples are refuted (C78_refuted: a root 7/3 where the Schroedinger equation has 2); C78_corrected is about the program with the eleven terms listed in SpinFlip3Fixed.v changed; C78_doubles says the singles and doubles parts need no change. Same restrictions as C74."
 },
 "C79": {
  "note": "Proved for every size and spin case from the molecular integrals on: CCSDT fixed points (regular denominators) are the solutions of the projected Schroedinger equation up to triples, the energy is its energy, the update loops are characterised cell by cell. The RHF shortcut (flag_RHF) and DIIS are not part of this claim; rounding is not modelled."
 },
 "C80": {
  "note": "For all dimensions, exchangeable integrals, antisymmetric T and L: moments, left triples amplitudes and variant-D denominators of the program are the matrix elements of exp(-T)H exp(T) written with second-quantised operators; the returned variant-D energy is E plus the sum over all triply excited determinants; variants A and B have the same numerators over differences of diagonal Fock / one-body Hbar elements. Variant C is modelled but its denominators are not characterised; C80_closed_shell: use_RHF returns the same four energies for closed shells. H is the CCSD Hbar of the model (hbar_ccsd), T and L need not solve their equations."
 },
 "C81": {
  "note": "C81_moments, C81_left: the arrays the kernels build are matrix elements with triply excited determinants. C81_correction: the returned energy. C81_closed_shell: use_RHF. Finding: the docstring says every term with a Fock block is ignored, the code keeps the occupied-unoccupied Fock block in the left factor (as the exact expression requires). Real orbitals are needed: the code uses one array for <pq|rs> and <rs|pq>. The array vC_vvov_4213 of ccsdptC_opt is declared with noa where nob is meant; the model indexes it within the range that is written."
 },
 "C82": {
  "note": "variants A, B and D; variant C's denominators (two-body diagonal without the three-body part) are modelled and shown spin-symmetric but not given an operator meaning; printing and the unused x3_aaa storage are not modelled; arithmetic over the reals"
 },
 "C83": {
  "note": "Residuals, fixed points and energies. A single Cholesky iteration is not the dense iteration: update_t2b reads the voov intermediate built half before and half after the T2a update, so only converged results are compared. L is arbitrary; the decomposition that produces it is the subject of its own property (CholeskyProps.v). Rounding is not modelled."
 },
 "C84": {
  "note": "All terms of the three routines, for every system size; RHF branches included (C84_closed_shell). The blocks that the Cholesky Hbar routine does not provide are left arbitrary in C84_right and C84_left. Rounding is not modelled, nor the Davidson solver on top (C26, C64)."
 },
 "C85": {
  "note": "All terms for every system size, from the molecular integrals on. Not modelled: the flag_RHF copies, the Davidson solver above HR (C26, C64), rounding. build_hbar_ccsdt works in place on the caller's Hamiltonian; the model returns the final values."
 },
 "C86": {
  "note": "The residual and the fixed points are proved for the unrestricted iteration. With flag_RHF the claim is false (C86_closed_shell states exactly when it holds, C86_closed_shell_refuted gives a case): get_ccs_intermediates_opt makes X.bb.vvov the same array as X.aa.vvov and cc2.py adds the vvvv term to both in place. EOMCC2 is not the CC2 Jacobian in the doubles block (C86_eomcc2_jacobian, C86_eomcc2_jacobian_refuted). Not modelled: the flag_RHF copies of HR, the Davidson solver above HR (C26), rounding."
 },
 "C87": {
  "note": "mp2 and mp3 loops and their callers, for every shape and any exchange-symmetric integrals; the first-order equation is on the determinants up to double excitations (`near`), the only ones either side can reach. mp3 never initialises Emp3 (intent(out)); the model starts it at 0 as f2py creates it. Not modelled: mp4 (marked as wrong in the source), run_mbpt's printing, rounding."
 },
 "C88": {
  "note": "For every H with the antisymmetries of a two-body operator, in particular for the output of hbar_ccsd. The eigenvector statements are for exact roots. Not modelled: update_l (the same loop as the right update, C26), the active-space (_p) variants, rounding."
 },
 "C89": {
  "note": "For every H with the antisymmetries of a two-body operator, in particular for the output of hbar_ccsdt. Not modelled: the flag_RHF copies, the outer iteration and DIIS of the left solver (C24, C26), update_l for the Davidson variant, rounding; a zero denominator is excluded by hypothesis and C89_shift_exists shows the hypothesis can be met."
 },
 "C90": {
  "note": "Fixed points, not the iterates: intermediate iterates with flag_RHF are not compared (C52_ccsd_iterates_refuted shows they differ for CCSD). The left vectors with flag_RHF are not covered."
 }
}