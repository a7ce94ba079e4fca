# Formal model of saullocastro/panels in Rocq (Coq 8.16.1)

Everything lives in `rocq/theories` (logical name `Verif`). Files are flat and prefixed:

* `Base_*.v`   sums, polynomials, decimal literals (mathematics, no code);
* `Data_*.v`   generated: the numeric tables of the C++ sources as exact decimals
               (generator: `tools/gen_tables.py`, reads `/repo` as text);
* `Model_*.v`  the model of the code, definitions only, each with a `/repo` citation;
* `Spec_*.v`   the vocabulary used to state properties (fields, energies, Bardell polynomials), independent of the model;
* `Proof_*.v`  lemmas;
* `Prop_*.v`   only the property theorems, each closed by `exact`, with `Print Assumptions`, and `Example`s showing the hypotheses can be met.

## Modelling decisions

* **Numbers.** `double` is modelled by Coq's real numbers `R`; table literals are the exact decimals in the
  source. Rounding of IEEE arithmetic is not modelled. Integers are unbounded (`nat`/`Z`).
* **Basis.** The kernels call `f`, `fp`, `fpp` from `bardell_functions.cpp`. The model of every kernel takes a record
  `basis` with these three functions; `code_basis` is the one read from the C++ file and `bardell_basis` the exact Bardell
  polynomials. Algebraic theorems hold for every basis (so in particular for `code_basis`);
  theorems about derivatives are stated for the exact basis, and the distance between the two is bounded separately (C01, C02).
* **Integral tables.** The analytical kernels take a record `tables` of six functions; `code_tables` is the generated
  one, `exact_tables` is built with Coquelicot's `RInt`. The distance between the two is bounded in C05.
* **Quadrature.** `leggauss_quad` is a function from `n` to points and weights; for n outside the switch statement it
  leaves the zero-initialised arrays untouched, as in the code.
* **Sparse matrices.** A COO matrix is the list of triplets written by the nested loops, with the `row > col: continue`
  test; its dense value at (r,c) is the sum of matching triplets (scipy semantics of duplicates). The value array is
  accumulated over integration points as in the code (positions recorded at the first point only).
* **External functions.** `structsolve.sparseutils.finalize_symmetric_matrix` keeps the upper triangle and
  mirrors it; `make_skew_symmetric` keeps the upper triangle and mirrors it with a minus sign. Their source is not in /repo: this is an
  assumption of the model. `composites` (laminate ABD) is an arbitrary 6x6 matrix.
* **Python exceptions** are values (`Err kind`). Object attributes that matter for histories (cached matrices, flow
  parameters, default options) are state of explicit transition functions.
* **Parallel loops.** `prange` chunks are modelled as independent writers of disjoint array regions executed in an arbitrary order (a permutation of chunk numbers).

## Properties: what is modelled and how each is proved

| id | plan |
|----|------|
| C01 | literals of `f` as decimals; exact polynomials from the Bardell formula, characterised by Legendre second derivative and end values; coefficient-wise exact integer check by `vm_compute` lifted to R for all xi in [-1,1] |
| C02 | same for `fp`, `fpp`, against `is_derive` of the exact polynomial |
| C03 | equality of the literal lists of the scalar and vector routines, lifted to all xi and flags |
| C04 | end values of exact polynomials; residual bound for the code's, through C01 |
| C05 | 6x900 entries: exact integer check of relative error and flag placement, lifted to `RInt` |
| C06 | finite check on table plus flag algebra |
| C07 | fixed-point interval evaluation of all moments for n=2..64 by `vm_compute`, soundness proof, lifted to all polynomials by linearity |
| C08 | **refuted**: n=1 and n>=65 give zero weights, hence zero matrices, without error; the positive half (2<=n<=64) proved |
| C09 | arithmetic bijection |
| C10 | linearity of the sums |
| C11, C12 | `is_derive` of the field model with the exact basis; for the stored tables a kernel-checked coefficient comparison bounds the difference |
| C13 | exx, eyy proved; gxy **refuted** (the code returns u_y+v_x+2 w_x w_y) with witness; exact excess proved |
| C14 | matrix product |
| C15 | chunk model, arbitrary permutation of the single stores and any num_cores |
| C16, C18 | kernel expression = B'FB by `field`, then Gram-matrix algebra for all sizes |
| C17 | kernel symmetry + mirror lemma |
| C19 | kernel = products of tabulated integrals = double integral of the energy density (`RInt`) |
| C20 | analytical kernel fed with quadrature tables = numerical kernel, any rule; hence equality for rules exact on the products; for the shipped data (rounded decimals) an explicit bound, 3 parts in 10^11, up to 12 terms (`Proof_Near*.v`) |
| C21, C22 | same machinery with the membrane-force and mass Gram matrices; `Prop_Rounded.v` gives both for the shipped (rounded) tables, every entry within 11 parts in 10^15 of its terms | 
| C23 | window additivity from exactness on the (polynomial) integrands |
| C24 | numerical path: C23; analytical path (the default) **refuted**: the limits are ignored |
| C25 | dense value of the assembly is 0 outside the block |
| C26 | **refuted** for gamma<>0 and for free edges; proved (partial) for gamma=0 and w=0 at the flow edges by integration by parts (`Proof_Aero.v`, `Prop_Aero.v`) |
| C27 | **refuted** (beta and gamma are cached on the object); first call proved |
| C28 | **refuted** for every model (missing function) |
| C29 | fint = kC c for every state without deflection; derivative of fint at rest = kC. Virtual work of fint first (Proof_Fint), then both from it |
| C30, C31 | derivative of fint; **refuted** as stated because of C13, exact excess term proved, partial theorem for states without the excess |
| C32-C34 | invariant of the load loops: the array after each step does the work of the loads taken so far (Proof_Fext); side integrals from C07 |
| C35 | state machine over call histories |
| C36 | penalty matrix and force compared through virtual work of springs, any list of constraints (Proof_Pd) |
| C37 | **refuted**: all three penalties land on w; what is computed is proved |
| C38, C39 | prefix sums of sizes over a store of shared panels (`world`); shift lemmas of every kernel (Proof_Shift, Proof_Place) give the block assembly |
| C40 | kernels of the five connection types = works of displacement jumps (Proof_Conn), then the loop over the dictionaries (Proof_MultiConn); shipped data by an entry-wise bound on every kernel (Proof_ConnNear, Proof_ConnNearApi); zero work gives zero jumps by continuity of the fields (Proof_ConnZero) |
| C41, C42 | state machine of `get_kC_conn` with its cache and the user's dictionaries as state; **refuted** with witness histories; mirrored lists and first call proved |
| C43 | real algebra; direction-dependent types |
| C44 | **refuted**: `calc_kC` is called with an argument it does not take |
| C45 | list sums |
| C46 | **refuted** with two panels of different length; proved when both vectors are given |
| C47 | prefix sums over the flanges, invariants of the bay monad; **refuted** for a 2D stiffener with a pad only |
| C48 | Gram algebra with exact tables |
| C49 | **refuted** (coupling term twice the consistent one): witness with negative kinetic energy |
| C50, C51 | attribute state model, case analysis on the attributes; parts **refuted** |
| C52 | list model of the ring and of its connections; seams through the connection stiffness of C40 |
| C53 | **refuted**: a later assembly rewrites the slices of shared panels; proved for disjoint assemblies |
| C54 | **refuted**: base and flange are exchanged when the flange comes first |
| C55 | **refuted** for plyt and laminaprop; proved for stack and offset by comparing the rebuilt attributes |
| C56 | relation between panels with the same definition, kept by every call; induction over the history. **Refuted** for calc_kM on a new panel |
| C57 | **refuted**: default upper limit read as the coordinate 1; upper limit alone ignored (for every panel) |
| C58 | drivers as world transformers, function literals with the captured loop variable; **refuted** (last entry for all), constant loads proved |
| C59 | **refuted** for every nonzero Nxx (argument never read); perturbation load proved |
| C60 | list model of skin ring and blades; seams as in C52 |
| C61 | state monad of the bay (panels, stiffeners, their own panels); invariant of all reachable bays, each call decomposed into the calls of the parts |
| C62 | forward execution of the monad from a readiness condition; **refuted** for calc_kM with a padded 1D stiffener |
| C63 | **refuted**: the matrix is the number of panels times the one of the skin |
| C64 | **refuted**: relation between bays with other limits, same matrices |
| C65 | relation between bays that differ in cached values only, induction over the calls |
| C66 | work of the flange as an integral; **refuted** with one ply and one term |
| C67 | **refuted** (Jxx is a pure length) |
| C68 | run of add_bladestiff2d; **refuted** when the thickness is given by plyt |
| C69 | **refuted**: calc_cA never returns, calc_kA needs an attribute set by get_size |
| C70 | panels as a list of fifteen records; case analysis on the panel number, real arithmetic for the places |
| C71 | set of connections = relation on places, both directions by cases |
| C72 | C40 applied to the assembly; no jumps because each seam shows one field at one place |
| C73 | loop invariant over the loaded panels: slices filled so far do the work so far |
| C74 | the selection loop as a fold: last index with the property; with a divided skin, the neighbours |
| C75 | size of the bay by a run through the flanges, then the chunk model of C15; points of two dimensions **refuted** |
| C76 | slice of the first flange as in C47; every later stiffener **refuted** |
| C77 | calls as transitions with outcomes; **refuted** for every force, zero vector proved otherwise |
| C78 | Model_Alloc: lengths of the arrays, one definition per kernel (tools/gen_alloc.py). Number of triplets of every kernel bounded for all sizes and offsets by counting over the loop nests; equality for the coupling blocks; positions of calc_fint's updates. |
| C79 | file system as a map from names to complete or cut pickles; functions that pickle refuses tracked through the load methods; substring test of load by Coq's String.index |
| C80 | the cleared panel has the same definition, so the rebuilding calls agree; the others are shown not to read what is cleared, by a relation on pairs of states |
| C81 | list of disk states at which the program can stop; load reads one file |
| C82 | attributes a Shell accepts listed from __slots__; loop over the panels of the bay |
| C83 | Dictionaries on a heap of locations (`Model_Plot`); induction over sequences of calls; witness with two vectors for the refutation. |
| C84 | Sizes from the schedule theorems of C15; witness with uvw at one point followed by strain at two. |
| C85 | Case analysis of `plot_shell` with the backup as a function on names; two witnesses. |
| C86 | Data handed to matplotlib modelled as a record; fold lemmas for min and max; invariant over call sequences for the transverse components. |
| C87 | Index-wise lemma on the arrays; witness with u = 1/4. |
| C88 | The six calls of C46-C48 composed with min and max; witness with two plates. |
| C89 | Inversion lemma of `rebuild` and the 36 entries; resultants by the definition of `shell_stress`. Added after a mutation of `ortho_zero` survived. |
| C90 | Index lemma for `flat_map` and the definition of `linspace`; `station` and `filled` state the positions independently. |
| C91 | `Model_Flutter` (flow data of the nine skin panels, sum of their unfinished matrices, skew-symmetrisation), `Spec_Flutter` (work of the pressure on the skin as integrals over the nine panels). The refutation takes the first shape function of the fifth panel, whose slope times itself does not integrate to zero. |
| C92 | `Spec_Support` states rest and movement of a line by the displacement field of the assembly, not by flags. `Proof_Support` derives both from the values of the shape functions at the ends, `Proof_SupportTop` goes through the fifteen panels. |
| C93 | Same specification as C92; `Proof_SupportCyl` reads the flags of the panels after the loops of the drivers. |
| C94 | `Spec_Modes` writes the complex eigenproblem as two real ones. `Proof_Modes` multiplies it by the conjugate vector and uses symmetry (C17) and the signs of the forms (C18, C22, C39, C40). |
| C95 | The Hermite cubics represent 1, x and x^2; their Ritz vectors have zero strain, and every row of the matrix is the work against that strain (C19). Conversely a zero of a continuous nonnegative integrand (C40's lemma) gives zero strain at every point, and the kinematics integrate to a rigid motion by the mean value theorem (w first, then v and u, which the curvature couples to w); the end values and end slopes of the functions make it one that the supports allow. Where the supports allow a motion, the Hermite coefficients that the flags suppress are zero already. |
| C96 | The Ritz vector of the coarse model is embedded in the fine one term by term, dropping functions whose flag is 0; fields agree because the functions are hierarchical, and the energies because the matrices are the integrals of C19-C22 of the same fields. |
| C97 | Model of the driver after the static case, with the closures bound to the last panel; the vector of the returned assembly by the theorem on assemblies of C54 and the work of the loads. |
| C98 | asm_kC_energy writes the quadratic form as the panels' own strain energies plus the works of the springs; all are nonnegative, so each is zero. A panel without strain energy moves in one of the ways of C95 and conversely; a connection without work does not open (continuity of the shape functions). A panel that moves so and whose displacements and slope across vanish at the two ends of a line, or at three corners, is at rest; induction along the connections. |
| C99 | C36 gives the work of the spring forces and of f for all pairs of vectors; with the solution it vanishes together with the bilinear form of K. Symmetry and semidefiniteness of K and convexity of the springs give the minimum; the single spring is the case c, c and d, c. |
| C100 | The flags of the panel at the corner x = a, y = b leave it no motion without strain; each other panel is reached from it through connections that exist with and without the defect, so C98 applies. |
| C101 | Each panel and blade keeps u, v, w along x = 0 and w along x = a, so its own supports leave it no motion without strain (C95); the loops of the drivers change neither that nor the layout of the assembly, and C98 applies. |
| C102 | A semidefinite symmetric system whose right-hand side does no work in the null vectors is solvable (induction on the size, no determinant). C95 gives the null vectors; the shape functions are linearly independent, so a field that is zero for the exact basis is zero for the evaluated one, and f does no work in it. Reciprocity and the minimum follow from symmetry and semidefiniteness; the comparison embeds the vector of one model into the other as in C96. |
| C103 | As C102: C98 gives the null vectors of K, C45 the work of f as the sum of the works of the panels' loads. More connections add nonnegative works (C40) to the energy, whose values are unique as integrals. |
| C104 | The loop over an empty list leaves the number 0; evaluation of get_kC_conn, with the block structure of C39 and C45 for the rest. |
| C105 | The work of the parts of C61; each is an integral of a quadratic form that is not negative; zero energy of skin and flanges by C95, of the springs by continuity, then the root line holds the flange; existence by elimination as in C102; equality of the works of the common parts for the comparison of two bays. |
| C106 | With definiteness from C105 the mode has strain energy; symmetry of K, G and M is that of the final symmetrisation, M is the sum of the kinetic energies of the parts (C61). Eigenvalues follow from the energies of the mode, coupling from symmetry. |
| C107 | Texts are lists of characters; re.findall, str.replace, the stable sort and the chain of splits are modelled as functions on them. An expression is a list of characters, powers and calls with conditions at their borders. The text after some replacements is a function of the set of powers already replaced; one replacement adds one power to the set as no other position matches, which holds for the longest remaining power. |
| C108 | Without compactness: the square of K is solved for the columns of K, which gives the projection on the range of K and hence a bound of every form that vanishes in the null states of K; the supremum of the load levels without negative energy then has a new null state, because otherwise the same bound would allow a higher level. Null states of K displace no point (C95), so G and M, integrals of products of the fields, vanish there. |
| C109 | Model_Bay.bay_kA; bay_rebuild is shown to keep the flow attributes of the bay and the coefficients of the panels (a frame property of each step); the matrix is then that of Shell.calc_kA on the first panel, to which C26 applies; determinacy of the kernel in its view of the panel gives the refutation for later flows. |
| C110 | The works of C103 to C105 split the quadratic forms of the bay over its parts; motionless displacements carry no work of the loads and no inertia, so the minimum over the unit sphere of C108 exists; adding parts adds nonnegative works to both forms. |
| C111 | The energies of C103 say which displacements K resists, the works of the own matrices of the panels say that motionless displacements carry no work of the loads and no inertia, so the minimum over the unit sphere of C108 exists; more connections add nonnegative energies to K; calc_kC keeps geometry, model and loads of every panel, by induction over its loops. |
| C112 | C111 applied to the assembly of C100: calc_kC keeps geometry, model, loads and density of every panel and leaves its laminate, so that calc_kG and calc_kM on the same object succeed; the two divisions have the same panels, the connections differ by the bond of panels 5 and 12 alone, whose work is not negative, and the works of loads and inertia agree by uniqueness of the integrals. |

No property is declared inexpressible. What the model cannot exhibit: IEEE rounding, memory safety of the nogil loops,
the numerical solvers of `structsolve`, plotting, pickling of files.

## What is modelled and what is not

| file of /repo/panels | model | not modelled |
|---|---|---|
| `core/src/bardell_functions.cpp`, `core/src/bardell.cpp`, `core/src/legendre_gauss_quadrature.cpp` | `Data_*.v` (every literal, generated), `Model_Bardell` | rounding of the literals to double |
| `bardell.pyx`, `legendre_gauss_quadrature.pyx` | `Model_Bardell` (calls), `Model_Alloc` (array lengths) | conversion between NumPy and C arrays |
| `models/plate_clpt_donnell_bardell.pyx`, `models/cylshell_clpt_donnell_bardell.pyx` | `Model_PlateAna`, `Model_CylAna` (generated expressions), `Model_Coo` (loops), `Model_DB`, `Model_Alloc` | 32-bit overflow of indices |
| `models/*_num.pyx` | `Model_PlateNumKer`, `Model_CylNumKer` (generated), `Model_Num` | |
| `models/clpt_bardell_field.pyx` | `Model_Field` | memory model of the threads other than the order of the chunks |
| `modelDB.py`, `stiffener/modelDB.py` | `Model_DB`, `Model_Bay` | the strings of the keys |
| `shell.py` | `Model_New` (constructor), `Model_Shell` (rebuild, matrices), `Model_Fext` (loads), `Model_Field`, `Model_Plot` (dictionaries), `Model_Save` | `freq`/`lb` and other solvers are not in this file; log messages; `gc.collect` |
| `shell_fext.py` | `Model_Fext` | |
| `plot_shell.py` | `Model_Plot` (the data) | drawing with matplotlib |
| `multidomain/multidomain.py` | `Model_Multi`, `Model_Plot` (limits of the scale) | drawing with matplotlib |
| `multidomain/connections/*.pyx`, `penalties.py` | `Model_Conn` (generated), `Model_Multi`, `Model_Pull` | — |
| `multidomain/cylinder.py`, `cylinder_blade_stiffened.py` | `Model_Cylinder` | the eigenvalue solver `structsolve.lb` |
| `multidomain/tstiff2d_1stiff_*.py` | `Model_TStiff`, `Model_Flutter`, `Model_TStiffEnd` | the solvers `lb`, `freq`, `static` |
| `stiffener/*.py`, `stiffener/models/*.pyx` | `Model_StiffKer` (generated), `Model_Bay` | |
| `stiffpanelbay/stiffpanelbay.py` | `Model_Bay`, `Model_BayField`, `Model_Save` | drawing with matplotlib |
| `dev/matrixtools.py` | `Model_Pow` (`pow2mult` and the powers of `mprint_as_array`) | printing of sympy matrices; characters beyond ASCII |
| `logger.py`, `__init__.py` | none | messages |

Outside /repo and taken as parameters: `composites` (an arbitrary laminate matrix per stacking sequence), `structsolve.sparseutils`
(its two functions as described under "Modelling decisions"), SciPy's COO and CSR containers, NumPy's element-wise operations, pickle
(a file holds a complete object or a truncated one). Arithmetic is over the reals throughout.

## Trusted base

* Coq 8.16.1's kernel and `vm_compute`.
* Axioms reported by `Print Assumptions` (all from the standard library's `Reals`/logic):
  `ClassicalDedekindReals.sig_not_dec`, `ClassicalDedekindReals.sig_forall_dec`,
  `FunctionalExtensionality.functional_extensionality_dep`, and, through Coquelicot's integrals, `Classical_Prop.classic`.
  No axiom is added. (Per-theorem list: section "Assumptions per theorem" below, written by `tools/gen_assumptions.py`.)
* The transcription of the code into `Model_*.v` and `Data_*.v`; kernel expressions are copied by `tools/gen_kernels.py`
  from the `.pyx` text with decimals written as fractions.

## Assumptions per theorem

<!-- assumptions: begin -->

370 theorems, grouped by what `Print Assumptions` lists.

**Closed under the global context** (18 theorems):

C09_layout_bijective, C09_size, C107_array_powers_become_products_partial, C107_array_powers_refuted, C107_no_powers, C107_other_powers_refuted, C107_powers_become_products, C38_panels_occupy_consecutive_slices, C38_slices_are_recovered, C47_size_is_skin_and_flanges, C47_slices, C53_other_assemblies_partial, C79_saved_panel_is_loaded_partial, C81_failed_save_loses_the_file, C81_finished_save, C81_stopped_save_partial, C82_bay_with_a_panel_is_never_saved, C82_empty_bay_is_loaded_partial.

**`ClassicalDedekindReals.sig_forall_dec`** (7 theorems):

C50_fails_exactly_when_incomplete, C50_idempotent, C50_user_values_kept_partial, C77_no_forces_partial, C79_point_loads_can_be_saved, C81_refuted, C89_laminate_is_orthotropic.

**`ClassicalDedekindReals.sig_forall_dec`, `FunctionalExtensionality.functional_extensionality_dep`** (136 theorems):

C01_shape_function_coefficients, C03_vector_equals_scalar, C06_integral_tables_symmetric, C07_gauss_nodes_and_weights, C08_partial_where_it_fails, C09_each_coefficient_moves_its_own_term, C104_after_unfinalized_partial, C104_internal_force_refuted, C104_no_list, C104_refuted, C105_added_1d, C105_added_2d, C105_reciprocity, C106_bay_modes_uncoupled, C106_panel_modes_uncoupled, C10_displacements_linear, C10_linear_strains_linear, C10_zero_vector_zero_field, C13_nonlinear_shear_strain_refuted, C13_nonlinear_strains_partial, C14_stress_is_laminate_times_strain, C15_strain_independent_of_cores_and_schedule, C15_uvw_independent_of_cores_and_schedule, C16_numeric_stiffness_is_strain_energy, C17_kC_computed_entries_mirror, C17_kC_symmetric, C17_kG_computed_entries_mirror, C17_kG_symmetric, C17_kM_computed_entries_mirror, C17_kM_symmetric, C17_package_tables_symmetric, C18_stiffness_positive_semidefinite, C18_weights_nonnegative, C21_numeric_geometric_stiffness, C22_numeric_mass_is_kinetic_energy, C22_numeric_mass_positive_semidefinite, C23_shape_functions_are_polynomials, C24_closed_forms_ignore_limits, C24_refuted, C25_kC_own_block, C25_kG_own_block, C25_kM_own_block, C28_refuted, C29_internal_force_of_flat_state, C32_line_loads_lost_with_one_term, C32_load_vector_does_the_work_of_the_loads, C33_incrementation, C33_superposition_in_any_order, C34_load_vector_in_its_slice, C35_accepted_definitions_run, C35_definitions_validated, C35_history_of_definitions, C36_point_constraint_energy, C36_point_constraint_symmetric_psd, C36_point_constraints_pull, C36_stiffness_point_constraint, C38_fields_of_each_panel, C39_geometric_stiffness_is_block_diagonal, C39_mass_is_block_diagonal, C41_first_matrix_stays, C42_either_order_gives_the_same_partial, C43_penalties, C43_positive_and_bounded_by_the_softer, C43_symmetric, C44_refuted, C45_external_force, C46_given_points_partial, C50_refuted, C51_refuted, C51_short_vector_read_out_of_bounds, C51_wrong_constant_vector_refused_partial, C51_wrong_vector_refused_partial, C57_refuted, C57_upper_limit_alone_ignored, C68_pad_lies_below_the_skin_partial, C69_aerodynamic_damping_refuted, C70_assembly, C70_edges, C70_parts_have_their_data, C70_skin_covers_the_panel, C70_skin_panels_do_not_overlap, C70_stiffener_in_place, C71_defect, C71_panels_are_joined_where_they_meet, C73_load_is_found, C73_loaded_panels, C74_edges_of_the_bay, C74_panels_beside_the_line, C74_stiffener_between_neighbours, C75_skin_displacements_partial, C75_wrong_vector_is_refused, C76_first_stiffener_partial, C78_closed_form_kernels, C78_connection_kernels, C78_integrated_kernels, C78_integrated_results, C78_internal_force_positions, C78_reached, C78_stiffener_kernels, C78_support_kernels, C79_line_constraints_prevent_saving, C79_refuted, C80_no_mass_after_save, C80_refuted, C82_refuted, C83_after_clear, C83_other_objects, C83_refuted, C83_returned_strain_partial, C83_returned_stress_partial, C83_returned_uvw_partial, C84_failed_call_keeps_fields, C84_failed_call_replaces_mesh, C84_own_components_partial, C84_refuted, C85_failed_plot, C85_fields_restored_partial, C85_refuted, C86_plot_shows_component_partial, C86_refuted, C86_transverse_components_never_plotted, C87_deformed_positions_partial, C87_refuted, C88_group_limits_partial, C88_transverse_components_never_plotted, C89_resultants_uncoupled, C90_default_mesh, C90_default_mesh_strain, C90_default_mesh_stress, C90_different_shapes_refused, C90_edges_included, C90_given_positions, C91_skin_lies_in_the_flow_partial, C94_panel_buckling, C99_constants, C99_no_constants_before.

**`ClassicalDedekindReals.sig_forall_dec`, `ClassicalDedekindReals.sig_not_dec`, `FunctionalExtensionality.functional_extensionality_dep`** (127 theorems):

C01_exact_functions_end_values, C01_exact_functions_second_derivative_legendre, C01_shape_functions, C02_first_derivative, C02_second_derivative, C04_edge_values_exact_functions, C04_edge_values_stored_functions, C04_zero_flag_fixes_edge, C08_refuted, C102_least_energy, C102_more_terms, C102_point_reciprocity, C102_reciprocity, C102_stiffer_laminate, C102_under_a_force, C108_more_terms, C108_stiffer_laminate, C109_first_panel, C109_given_beta_refuted, C109_later_flow_refuted, C109_returns_partial, C109_skew, C109_work_of_the_pressure_partial, C111_connections_raise_both, C18_analytical_stiffness_positive_semidefinite, C19_analytical_stiffness_is_strain_energy, C20_geometric_numeric_equals_analytical, C20_mass_numeric_equals_analytical, C20_stiffness_numeric_equals_analytical, C21_analytical_geometric_stiffness, C22_analytical_mass_is_kinetic_energy, C22_analytical_mass_positive_semidefinite, C23_geometric_windows_add_along_x, C23_geometric_windows_add_along_y, C23_internal_force_windows_add_along_x, C23_internal_force_windows_add_along_y, C23_mass_windows_add_along_x, C23_mass_windows_add_along_y, C23_stiffness_windows_add_along_x, C23_stiffness_windows_add_along_y, C24_numerical_parts_add_up_partial, C25_kA_own_block, C26_any_edges_partial, C26_upper_entries_partial, C26_work_of_the_pressure_partial, C27_first_call_partial, C27_later_flow_is_ignored, C27_unknown_flow_is_refused, C37_partial_exact_value, C37_partial_w_constants, C39_stiffness_is_block_diagonal_plus_connections, C40_connection_stiffness_is_the_work_of_the_jumps, C40_no_stiffness_exactly_without_jumps, C42_definitions_in_order_are_kept_partial, C45_internal_force, C46_refuted, C47_flange_needed, C47_flanges_are_not_coupled, C47_pad_only_refuted, C48_compatible_fields_are_free, C48_springs_are_nonnegative, C48_springs_are_the_work_of_the_jumps, C52_panels_form_a_ring, C52_seams_of_the_ring, C53_refuted, C55_refuted, C55_stack_and_offset_followed_partial, C55_thickness_and_material_ignored, C56_earlier_calls_do_not_matter_partial, C56_mass_and_internal_force_of_rebuilt_panel, C56_refuted, C58_all_panels_get_the_last_load, C58_constant_loads_partial, C58_equal_loads_partial, C58_other_loads_ignored, C58_refuted, C58_skin_gets_the_load_of_the_last_blade, C59_perturbation_partial, C59_refuted, C60_each_blade_on_its_panel, C60_seams_and_blades, C61_geometric_stiffness_is_work_of_parts, C61_mass_is_work_of_parts, C61_stiffness_is_work_of_parts, C62_geometric_stiffness_is_returned, C62_mass_is_returned_refuted, C62_mass_is_returned_without_pads_partial, C62_padded_stiffener_has_no_mass, C62_stiffness_is_returned, C63_division_of_the_skin_refuted, C63_every_panel_counts_as_the_whole_skin_partial, C64_limits_are_ignored, C64_panels_keep_to_their_strip_refuted, C65_geometric_stiffness_does_not_depend_on_earlier_calls, C65_mass_does_not_depend_on_earlier_calls, C65_stiffness_does_not_depend_on_earlier_calls, C66_flange_stiffness_positive_partial, C66_plies_along_the_flange_partial, C67_all_but_torsion_is_proportional_partial, C68_pad_below_the_skin_refuted, C69_first_call_refuted, C72_stiffness_of_the_seams, C73_compression_load, C73_load_given_to_static, C75_given_mesh_refuted, C76_later_stiffeners_refuted, C77_forces_refuted, C80_same_results_after_save_partial, C88_refuted, C91_every_entry_partial, C91_sum_of_panels_partial, C92_no_other_support, C92_outer_edges, C93_blades, C93_compressed_cylinder, C93_cylinder, C94_assembly_buckling, C94_assembly_vibrations, C94_panel_vibrations, C96_bound, C96_frequencies, C96_states, C96_stiffer_laminate, C97_refuted, C97_returned_load_is_zero_partial, C99_between_zero_and_prescribed, C99_least_energy.

**`ClassicalDedekindReals.sig_forall_dec`, `ClassicalDedekindReals.sig_not_dec`, `Classical_Prop.classic`, `FunctionalExtensionality.functional_extensionality_dep`** (82 theorems):

C02_boundary_functions_exact, C05_integral_tables, C05_integrals_exist, C07_gauss_exact_for_polynomials, C100_no_free_motion, C100_unique_response, C101_blades, C101_cylinder, C102_exists, C102_unique, C103_blades, C103_cylinder, C103_exists, C103_least_energy, C103_more_connections, C103_point_reciprocity, C103_reciprocity, C103_tstiffened, C103_under_a_force, C103_unique, C105_exists, C105_held, C105_least_energy, C105_nothing_else, C105_stiffeners_stiffen, C105_stores_energy, C105_unique, C106_buckling, C106_vibration, C108_compressed_panels_buckle, C108_lowest_buckling_load, C108_lowest_buckling_load_of_state, C108_lowest_frequency, C108_panels_vibrate, C110_compressed_bays_buckle, C110_lowest_buckling_load, C110_lowest_frequency, C110_stiffeners_raise_the_load, C111_compressed_assemblies_buckle, C111_cylinder, C111_lowest_buckling_load, C111_lowest_frequency, C112_buckling, C112_debonding_lowers_both, C112_frequency, C11_rotations_exact_functions, C11_rotations_stored_functions, C12_linear_strains_exact_functions, C12_linear_strains_stored_functions, C19_exact_tables_integrate, C19_stiffness_with_stored_tables, C20_geometric_stiffness_with_shipped_data, C20_mass_with_shipped_data, C20_stiffness_with_shipped_data, C21_geometric_stiffness_with_stored_tables, C22_mass_with_stored_tables, C26_free_ends_refuted, C26_refuted, C27_refuted, C29_internal_force_linearises_to_stiffness, C30_internal_force_is_gradient_partial, C30_internal_force_is_gradient_refuted, C31_tangent_is_jacobian_partial, C31_tangent_is_jacobian_refuted, C32_line_loads_are_integrated, C37_refuted, C40_with_shipped_data, C41_refuted, C42_refuted, C49_mass_is_kinetic_energy_with_coupling_doubled_partial, C49_mass_refuted, C54_refuted, C66_flange_stiffness_refuted, C67_proportional_refuted, C91_refuted, C95_as_the_supports_allow, C95_nothing_else, C95_only_if_anchored, C95_rigid_motions, C95_unique_response, C98_nothing_else, C98_unique_response.

<!-- assumptions: end -->
