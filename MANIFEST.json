{
 "claims": [
  {
   "property": "C01",
   "status": "proved",
   "theorems": [
    "C01_exact_functions_end_values",
    "C01_exact_functions_second_derivative_legendre",
    "C01_shape_functions",
    "C01_shape_function_coefficients"
   ],
   "note": ""
  },
  {
   "property": "C02",
   "status": "proved",
   "theorems": [
    "C02_first_derivative",
    "C02_second_derivative",
    "C02_boundary_functions_exact"
   ],
   "note": ""
  },
  {
   "property": "C03",
   "status": "proved",
   "theorems": [
    "C03_vector_equals_scalar"
   ],
   "note": ""
  },
  {
   "property": "C04",
   "status": "proved",
   "theorems": [
    "C04_edge_values_exact_functions",
    "C04_zero_flag_fixes_edge",
    "C04_edge_values_stored_functions"
   ],
   "note": "Exact for the exact shape functions; for the stored ones within 4e-9 (2e-7 for slopes) times the sum of absolute coefficients."
  },
  {
   "property": "C05",
   "status": "proved",
   "theorems": [
    "C05_integral_tables",
    "C05_integrals_exist"
   ],
   "note": ""
  },
  {
   "property": "C06",
   "status": "proved",
   "theorems": [
    "C06_integral_tables_symmetric"
   ],
   "note": ""
  },
  {
   "property": "C07",
   "status": "proved",
   "theorems": [
    "C07_gauss_exact_for_polynomials",
    "C07_gauss_nodes_and_weights"
   ],
   "note": ""
  },
  {
   "property": "C08",
   "status": "partial",
   "theorems": [
    "C08_refuted",
    "C08_partial_where_it_fails"
   ],
   "note": "Refuted as stated: one point, or more than 64, silently integrates everything to 0. The partial theorem says exactly where the rules work and where they return zeros."
  },
  {
   "property": "C09",
   "status": "proved",
   "theorems": [
    "C09_layout_bijective",
    "C09_size",
    "C09_each_coefficient_moves_its_own_term"
   ],
   "note": ""
  },
  {
   "property": "C10",
   "status": "proved",
   "theorems": [
    "C10_displacements_linear",
    "C10_zero_vector_zero_field",
    "C10_linear_strains_linear"
   ],
   "note": ""
  },
  {
   "property": "C11",
   "status": "proved",
   "theorems": [
    "C11_rotations_exact_functions",
    "C11_rotations_stored_functions"
   ],
   "note": "Exact derivative for the exact shape functions; for the stored ones the derivative exists and differs by at most 3e-7 * 2/a * sum of absolute terms on the panel."
  },
  {
   "property": "C12",
   "status": "proved",
   "theorems": [
    "C12_linear_strains_exact_functions",
    "C12_linear_strains_stored_functions"
   ],
   "note": "Exact for the exact shape functions; explicit rounding bound for the stored ones. eyy uses 1/r whenever r is not 0, whatever the model."
  },
  {
   "property": "C13",
   "status": "partial",
   "theorems": [
    "C13_nonlinear_strains_partial",
    "C13_nonlinear_shear_strain_refuted"
   ],
   "note": "Refuted as stated: gxy contains 2*w_x*w_y. The partial theorem gives the exact value of every component."
  },
  {
   "property": "C14",
   "status": "proved",
   "theorems": [
    "C14_stress_is_laminate_times_strain"
   ],
   "note": ""
  },
  {
   "property": "C15",
   "status": "proved",
   "theorems": [
    "C15_uvw_independent_of_cores_and_schedule",
    "C15_strain_independent_of_cores_and_schedule"
   ],
   "note": "A schedule is any reordering of all single stores into the result arrays."
  },
  {
   "property": "C16",
   "status": "proved",
   "theorems": [
    "C16_numeric_stiffness_is_strain_energy"
   ],
   "note": "Numerical integration, plate and cylinder, linear and linearised about a state."
  },
  {
   "property": "C17",
   "status": "proved",
   "theorems": [
    "C17_kC_computed_entries_mirror",
    "C17_kG_computed_entries_mirror",
    "C17_kM_computed_entries_mirror",
    "C17_package_tables_symmetric",
    "C17_kC_symmetric",
    "C17_kG_symmetric",
    "C17_kM_symmetric"
   ],
   "note": "Finalized kC, kG, kM are symmetric; without finalization, whatever the loops put below the diagonal is the mirror image of the upper triangle (numerical and closed-form kernels)."
  },
  {
   "property": "C18",
   "status": "proved",
   "theorems": [
    "C18_analytical_stiffness_positive_semidefinite",
    "C18_stiffness_positive_semidefinite",
    "C18_weights_nonnegative"
   ],
   "note": "Numerically integrated and closed-form stiffness; weights of the package's rules proved nonnegative."
  },
  {
   "property": "C19",
   "status": "proved",
   "theorems": [
    "C19_analytical_stiffness_is_strain_energy",
    "C19_exact_tables_integrate",
    "C19_stiffness_with_stored_tables"
   ],
   "note": "Exact energy for tables holding the integrals; entrywise bound 1.1e-14 for the package's stored tables."
  },
  {
   "property": "C20",
   "status": "proved",
   "theorems": [
    "C20_stiffness_numeric_equals_analytical",
    "C20_geometric_numeric_equals_analytical",
    "C20_mass_numeric_equals_analytical",
    "C20_stiffness_with_shipped_data",
    "C20_geometric_stiffness_with_shipped_data",
    "C20_mass_with_shipped_data"
   ],
   "note": "kC (linear), kG (zero state), kM; exact rule exhibited for the cubic functions; with the shipped (rounded) rule, functions and tables the entries differ by at most 3e-11 times area, factors and coefficients, up to 12 terms."
  },
  {
   "property": "C21",
   "status": "proved",
   "theorems": [
    "C21_analytical_geometric_stiffness",
    "C21_geometric_stiffness_with_stored_tables",
    "C21_numeric_geometric_stiffness"
   ],
   "note": "Numerical and closed-form kernels; also with the shipped, rounded tables (within 11e-15 of the terms)."
  },
  {
   "property": "C22",
   "status": "proved",
   "theorems": [
    "C22_analytical_mass_is_kinetic_energy",
    "C22_analytical_mass_positive_semidefinite",
    "C22_mass_with_stored_tables",
    "C22_numeric_mass_is_kinetic_energy",
    "C22_numeric_mass_positive_semidefinite"
   ],
   "note": "Numerical and closed-form kernels, also with the shipped, rounded tables; the coupling sign of the offset is the code's (+offset)."
  },
  {
   "property": "C23",
   "status": "proved",
   "theorems": [
    "C23_shape_functions_are_polynomials",
    "C23_stiffness_windows_add_along_x",
    "C23_stiffness_windows_add_along_y",
    "C23_geometric_windows_add_along_x",
    "C23_geometric_windows_add_along_y",
    "C23_mass_windows_add_along_x",
    "C23_mass_windows_add_along_y",
    "C23_internal_force_windows_add_along_x",
    "C23_internal_force_windows_add_along_y"
   ],
   "note": "kC, kG, kM and fint, in x and in y, linear and nonlinear, for one laminate (thickness, density) over the panel and a rule exact for the degree of the integrand; the stored functions are polynomials of that degree. The stored Gauss rules are exact to 1e-16 per coefficient (C03)."
  },
  {
   "property": "C24",
   "status": "partial",
   "theorems": [
    "C24_closed_forms_ignore_limits",
    "C24_refuted",
    "C24_numerical_parts_add_up_partial"
   ],
   "note": "Refuted for the default closed-form calculations: kC, kG and kM ignore the limits (proved for every panel). Proved for the numerical calculation."
  },
  {
   "property": "C25",
   "status": "proved",
   "theorems": [
    "C25_kC_own_block",
    "C25_kG_own_block",
    "C25_kM_own_block",
    "C25_kA_own_block"
   ],
   "note": "kC, kG, kM, kA."
  },
  {
   "property": "C26",
   "status": "partial",
   "theorems": [
    "C26_work_of_the_pressure_partial",
    "C26_upper_entries_partial",
    "C26_refuted",
    "C26_free_ends_refuted",
    "C26_any_edges_partial"
   ],
   "note": "Refuted for gamma<>0 (entries below the diagonal get the opposite sign) and for ends free to deflect along the flow. Proved for gamma=0 with both ends held, for exact quadrature and exact shape functions; entries on and above the diagonal also for gamma<>0."
  },
  {
   "property": "C27",
   "status": "partial",
   "theorems": [
    "C27_first_call_partial",
    "C27_unknown_flow_is_refused",
    "C27_later_flow_is_ignored",
    "C27_refuted"
   ],
   "note": "Refuted: beta and gamma stay on the panel after the first call and later changes of the flow are ignored. Proved for the first call."
  },
  {
   "property": "C28",
   "status": "partial",
   "theorems": [
    "C28_refuted"
   ],
   "note": "Refuted for both models and every panel: calc_cA raises AttributeError, the function it calls does not exist."
  },
  {
   "property": "C29",
   "status": "proved",
   "theorems": [
    "C29_internal_force_of_flat_state",
    "C29_internal_force_linearises_to_stiffness"
   ],
   "note": "calc_fint has no linear mode; proved for states without deflection and for the derivative at rest."
  },
  {
   "property": "C30",
   "status": "partial",
   "theorems": [
    "C30_internal_force_is_gradient_partial",
    "C30_internal_force_is_gradient_refuted"
   ],
   "note": "Refuted as stated: the shear strain of the coded internal force contains w,x w,y twice. The partial theorem gives the gradient and the exact excess for every state and direction."
  },
  {
   "property": "C31",
   "status": "partial",
   "theorems": [
    "C31_tangent_is_jacobian_partial",
    "C31_tangent_is_jacobian_refuted"
   ],
   "note": "Refuted as stated, same cause as C30. The partial theorem gives the derivative of calc_fint as kT minus the applied-load part plus the exact excess."
  },
  {
   "property": "C32",
   "status": "proved",
   "theorems": [
    "C32_load_vector_does_the_work_of_the_loads",
    "C32_line_loads_are_integrated",
    "C32_line_loads_lost_with_one_term"
   ],
   "note": "The sums along a side are proved equal to the integral for polynomial densities up to the rule's degree; with one term along a side (or more than 64) the line loads are lost, proved as a separate theorem."
  },
  {
   "property": "C33",
   "status": "proved",
   "theorems": [
    "C33_incrementation",
    "C33_superposition_in_any_order"
   ],
   "note": ""
  },
  {
   "property": "C34",
   "status": "proved",
   "theorems": [
    "C34_load_vector_in_its_slice"
   ],
   "note": ""
  },
  {
   "property": "C35",
   "status": "proved",
   "theorems": [
    "C35_definitions_validated",
    "C35_history_of_definitions",
    "C35_accepted_definitions_run"
   ],
   "note": "Distributed prescribed displacements additionally need a non-zero constant and, per component, both constant and function or neither."
  },
  {
   "property": "C36",
   "status": "proved",
   "theorems": [
    "C36_point_constraints_pull",
    "C36_point_constraint_energy",
    "C36_point_constraint_symmetric_psd",
    "C36_stiffness_point_constraint"
   ],
   "note": "Any list of constraints; also calc_stiffness_point_constraint."
  },
  {
   "property": "C37",
   "status": "partial",
   "theorems": [
    "C37_refuted",
    "C37_partial_w_constants",
    "C37_partial_exact_value"
   ],
   "note": "Refuted as stated: the penalties of u and v are placed on the coefficients of w. The partial theorems give the exact bilinear form for all constants and the intended one for w constants, for tables that hold the integrals."
  },
  {
   "property": "C38",
   "status": "proved",
   "theorems": [
    "C38_panels_occupy_consecutive_slices",
    "C38_slices_are_recovered",
    "C38_fields_of_each_panel"
   ],
   "note": "Lists of different panels (a panel listed twice keeps only its last slice)."
  },
  {
   "property": "C39",
   "status": "proved",
   "theorems": [
    "C39_geometric_stiffness_is_block_diagonal",
    "C39_mass_is_block_diagonal",
    "C39_stiffness_is_block_diagonal_plus_connections"
   ],
   "note": "kG and kM exactly; kC is the block-diagonal matrix plus the connection matrix (the package has no kC without connections)."
  },
  {
   "property": "C40",
   "status": "proved",
   "theorems": [
    "C40_with_shipped_data",
    "C40_no_stiffness_exactly_without_jumps",
    "C40_connection_stiffness_is_the_work_of_the_jumps"
   ],
   "note": "SSxcte, SSycte, BFxcte, BFycte, SB and SB_TSL, through MultiDomain.get_kC_conn; tables holding the integrals; panels in the order of the assembly, or skin-skin connections of equal sides. With the shipped tables and functions each entry is within 4e-12 of the springs' stiffness (up to 12 terms, flags between -1 and 1, connected lines on the panels). A vector meets no stiffness exactly when nothing jumps, for continuous shape functions."
  },
  {
   "property": "C41",
   "status": "partial",
   "theorems": [
    "C41_refuted",
    "C41_first_matrix_stays"
   ],
   "note": "Refuted as stated: the first matrix is returned for ever. C40 covers the first call."
  },
  {
   "property": "C42",
   "status": "partial",
   "theorems": [
    "C42_either_order_gives_the_same_partial",
    "C42_definitions_in_order_are_kept_partial",
    "C42_refuted"
   ],
   "note": "Refuted: definitions whose first panel comes later are changed in place and a second assembly using them gets another matrix. Proved: either order of listing gives the same matrix; definitions in order are unchanged."
  },
  {
   "property": "C43",
   "status": "proved",
   "theorems": [
    "C43_penalties",
    "C43_symmetric",
    "C43_positive_and_bounded_by_the_softer"
   ],
   "note": "An unknown type (not reachable from get_kC_conn) returns None in the code and is not modelled."
  },
  {
   "property": "C44",
   "status": "partial",
   "theorems": [
    "C44_refuted"
   ],
   "note": "Refuted: every call raises TypeError."
  },
  {
   "property": "C45",
   "status": "proved",
   "theorems": [
    "C45_internal_force",
    "C45_external_force"
   ],
   "note": "Internal force with connections (the package has none without) and external force, slice by slice."
  },
  {
   "property": "C46",
   "status": "partial",
   "theorems": [
    "C46_given_points_partial",
    "C46_refuted"
   ],
   "note": "Refuted: a missing vector is taken from the first panel of the group for all of them. Proved when both are given."
  },
  {
   "property": "C47",
   "status": "partial",
   "theorems": [
    "C47_size_is_skin_and_flanges",
    "C47_slices",
    "C47_flanges_are_not_coupled",
    "C47_flange_needed",
    "C47_pad_only_refuted"
   ],
   "note": "Size, disjoint consecutive slices and absence of coupling between flanges are proved for every bay on which the calculations return. Refuted for a 2D stiffener with a pad only: get_size raises."
  },
  {
   "property": "C48",
   "status": "proved",
   "theorems": [
    "C48_springs_are_the_work_of_the_jumps",
    "C48_springs_are_nonnegative",
    "C48_compatible_fields_are_free"
   ],
   "note": "Work of the jumps, nonnegative, zero for compatible fields; any table and basis with the exact values."
  },
  {
   "property": "C49",
   "status": "partial",
   "theorems": [
    "C49_mass_is_kinetic_energy_with_coupling_doubled_partial",
    "C49_mass_refuted"
   ],
   "note": "Refuted: the coupling of deflection and axial motion is twice the kinetic one; witness with negative kinetic energy. The exact value of the matrix is proved."
  },
  {
   "property": "C50",
   "status": "partial",
   "theorems": [
    "C50_idempotent",
    "C50_fails_exactly_when_incomplete",
    "C50_user_values_kept_partial",
    "C50_refuted"
   ],
   "note": "Idempotence and the failure condition are proved. Keeping user values is refuted for ABD (overwritten) and for too small nx, ny (raised to m, n); proved for all other attributes."
  },
  {
   "property": "C51",
   "status": "partial",
   "theorems": [
    "C51_wrong_vector_refused_partial",
    "C51_wrong_constant_vector_refused_partial",
    "C51_refuted",
    "C51_short_vector_read_out_of_bounds"
   ],
   "note": "Refuted for calc_fint and uvw, which accept longer vectors; shorter ones make calc_fint read out of bounds. Proved for calc_kC, calc_kG, calc_kT."
  },
  {
   "property": "C52",
   "status": "proved",
   "theorems": [
    "C52_panels_form_a_ring",
    "C52_seams_of_the_ring"
   ],
   "note": "Structure of the ring for every n>=2 (panels, widths, connections, degree two, connectedness) and, through the connection stiffness, zero energy for displacements continuous around the ring. n is a natural number; the drawing positions are not part of this statement."
  },
  {
   "property": "C53",
   "status": "partial",
   "theorems": [
    "C53_refuted",
    "C53_other_assemblies_partial"
   ],
   "note": "Refuted: a later assembly moves the slices of shared panels. Proved for assemblies without common panels."
  },
  {
   "property": "C54",
   "status": "partial",
   "theorems": [
    "C54_refuted"
   ],
   "note": "Refuted: the roles follow the order of the panels in the assembly. C40 covers the connections in order."
  },
  {
   "property": "C55",
   "status": "partial",
   "theorems": [
    "C55_stack_and_offset_followed_partial",
    "C55_thickness_and_material_ignored",
    "C55_refuted"
   ],
   "note": "Refuted: plyt and laminaprop assigned after a calculation are ignored (proved for every panel). Proved for stack with the same number of plies and offset."
  },
  {
   "property": "C56",
   "status": "partial",
   "theorems": [
    "C56_earlier_calls_do_not_matter_partial",
    "C56_mass_and_internal_force_of_rebuilt_panel",
    "C56_refuted"
   ],
   "note": "Proved for calc_kC, calc_kG, calc_kT, calc_fext for all histories, and for calc_kM, calc_fint on rebuilt panels. Refuted for calc_kM on new panels; calc_kA is C27."
  },
  {
   "property": "C57",
   "status": "partial",
   "theorems": [
    "C57_upper_limit_alone_ignored",
    "C57_refuted"
   ],
   "note": "Refuted: the default +1 of the upper limit is used as the coordinate 1, and an upper limit given alone is ignored (proved for every panel)."
  },
  {
   "property": "C58",
   "status": "partial",
   "theorems": [
    "C58_constant_loads_partial",
    "C58_all_panels_get_the_last_load",
    "C58_other_loads_ignored",
    "C58_equal_loads_partial",
    "C58_refuted",
    "C58_skin_gets_the_load_of_the_last_blade"
   ],
   "note": "Refuted: the function literals read the loop variable when calc_fext calls them, after the loop, so every panel gets the last entry; with blades, the load of the last blade. The driver with constant Nxx is right, and the static one for equal loads. The solvers lb and static are external and not modelled."
  },
  {
   "property": "C59",
   "status": "partial",
   "theorems": [
    "C59_refuted",
    "C59_perturbation_partial"
   ],
   "note": "Refuted for every nonzero Nxx: the argument is not read and the load is the attribute Nxx of the last panel, 0. The perturbation load is applied as documented."
  },
  {
   "property": "C60",
   "status": "proved",
   "theorems": [
    "C60_each_blade_on_its_panel",
    "C60_seams_and_blades"
   ],
   "note": "Structure for every n>=2 and energy of the connections."
  },
  {
   "property": "C61",
   "status": "proved",
   "theorems": [
    "C61_stiffness_is_work_of_parts",
    "C61_geometric_stiffness_is_work_of_parts",
    "C61_mass_is_work_of_parts"
   ],
   "note": "For every bay built by any sequence of additions and calls."
  },
  {
   "property": "C62",
   "status": "partial",
   "theorems": [
    "C62_stiffness_is_returned",
    "C62_geometric_stiffness_is_returned",
    "C62_mass_is_returned_without_pads_partial",
    "C62_padded_stiffener_has_no_mass",
    "C62_mass_is_returned_refuted"
   ],
   "note": "calc_kC and calc_kG are total on completely defined bays; calc_kM without padded 1D stiffeners. Refuted for calc_kM: it never returns when a 1D stiffener has a pad."
  },
  {
   "property": "C63",
   "status": "partial",
   "theorems": [
    "C63_every_panel_counts_as_the_whole_skin_partial",
    "C63_division_of_the_skin_refuted"
   ],
   "note": "Refuted: every panel counts as the whole skin, so a skin cut in two is twice as stiff. The factor is proved for every number of panels."
  },
  {
   "property": "C64",
   "status": "partial",
   "theorems": [
    "C64_limits_are_ignored",
    "C64_panels_keep_to_their_strip_refuted"
   ],
   "note": "Refuted: limits and widths are ignored by the matrices (proved for every bay); a panel of no width is as stiff as the skin."
  },
  {
   "property": "C65",
   "status": "proved",
   "theorems": [
    "C65_stiffness_does_not_depend_on_earlier_calls",
    "C65_geometric_stiffness_does_not_depend_on_earlier_calls",
    "C65_mass_does_not_depend_on_earlier_calls"
   ],
   "note": "For every bay and every sequence of successful calls of the three."
  },
  {
   "property": "C66",
   "status": "partial",
   "theorems": [
    "C66_flange_stiffness_positive_partial",
    "C66_plies_along_the_flange_partial",
    "C66_flange_stiffness_refuted"
   ],
   "note": "Positive when S1 = 0, in particular for plies along the flange. Refuted in general (S1 formula)."
  },
  {
   "property": "C67",
   "status": "partial",
   "theorems": [
    "C67_all_but_torsion_is_proportional_partial",
    "C67_proportional_refuted"
   ],
   "note": "Refuted: the torsion constant has no modulus. Everything but the torsion is proportional."
  },
  {
   "property": "C68",
   "status": "partial",
   "theorems": [
    "C68_pad_lies_below_the_skin_partial",
    "C68_pad_below_the_skin_refuted"
   ],
   "note": "Proved when the panels give a thickness per ply. Refuted when they give plyt: the offset is computed before the thicknesses are known."
  },
  {
   "property": "C69",
   "status": "partial",
   "theorems": [
    "C69_aerodynamic_damping_refuted",
    "C69_first_call_refuted"
   ],
   "note": "Refuted: calc_cA never returns; calc_kA never returns as the first calculation."
  },
  {
   "property": "C70",
   "status": "proved",
   "theorems": [
    "C70_skin_covers_the_panel",
    "C70_skin_panels_do_not_overlap",
    "C70_stiffener_in_place",
    "C70_edges",
    "C70_parts_have_their_data",
    "C70_assembly"
   ],
   "note": "Geometry, groups, flags and layout of the assembly for all dimensions; construction shared by the three functions (agreement of the boundary flags checked by tools/gen_tstiff.py)."
  },
  {
   "property": "C71",
   "status": "proved",
   "theorems": [
    "C71_panels_are_joined_where_they_meet",
    "C71_defect"
   ],
   "note": "The list of connections is characterised exactly by the positions of the panels."
  },
  {
   "property": "C72",
   "status": "proved",
   "theorems": [
    "C72_stiffness_of_the_seams"
   ],
   "note": "For basis and tables that integrate products of the basis (tables_integrate, as in C40)."
  },
  {
   "property": "C73",
   "status": "proved",
   "theorems": [
    "C73_compression_load",
    "C73_loaded_panels",
    "C73_load_is_found",
    "C73_load_given_to_static"
   ],
   "note": "For every store in which the panels are as created (also after the stiffness was computed); integration along the edge with the rule of the code, whose error is C32's. The work is that of the load vector before its sign is changed for the solver."
  },
  {
   "property": "C74",
   "status": "proved",
   "theorems": [
    "C74_panels_beside_the_line",
    "C74_edges_of_the_bay",
    "C74_stiffener_between_neighbours"
   ],
   "note": "Exact equality of ys with the panel limits inside the bay, as in the code; at the edges the tolerance of numpy.isclose (1e-8 + 1e-5|y|). Lines within the tolerance of both edges at once (width below the tolerance) are excluded."
  },
  {
   "property": "C75",
   "status": "partial",
   "theorems": [
    "C75_skin_displacements_partial",
    "C75_wrong_vector_is_refused",
    "C75_given_mesh_refuted"
   ],
   "note": "Proved for the default mesh and for points given as one-dimensional arrays. Refuted for arrays of other shapes: they reach the compiled function without being flattened, so that even the mesh returned by uvw_skin is refused when given back."
  },
  {
   "property": "C76",
   "status": "partial",
   "theorems": [
    "C76_first_stiffener_partial",
    "C76_later_stiffeners_refuted"
   ],
   "note": "Proved for the first stiffener of the list. Refuted for all others: get_size is called on the preceding stiffener object, which has no such method; no vector, points or region gives a result for si > 0."
  },
  {
   "property": "C77",
   "status": "partial",
   "theorems": [
    "C77_no_forces_partial",
    "C77_forces_refuted"
   ],
   "note": "Refuted: with a force on the skin the compiled function refuses the bay (it is not a Shell); with a 2D stiffener the attribute forces of its flange does not exist, and if the user assigns it, five rows are written into an array with three. A result is only possible without forces, and is then the zero vector of the right size."
  },
  {
   "property": "C78",
   "status": "proved",
   "theorems": [
    "C78_closed_form_kernels",
    "C78_integrated_kernels",
    "C78_integrated_results",
    "C78_connection_kernels",
    "C78_stiffener_kernels",
    "C78_support_kernels",
    "C78_internal_force_positions"
   ],
   "note": "Every kernel of the panels, connections, stiffeners and supports, for all numbers of terms and offsets; the arrays' lengths are transcribed by tools/gen_alloc.py. The external force routines and fields are covered by C51 and C75."
  },
  {
   "property": "C79",
   "status": "partial",
   "theorems": [
    "C79_saved_panel_is_loaded_partial",
    "C79_point_loads_can_be_saved",
    "C79_line_constraints_prevent_saving",
    "C79_refuted"
   ],
   "note": "Refuted: a name in which '.Shell' occurs is written to one file and read from another, and a panel with a distributed prescribed displacement (or a load given by a lambda) cannot be pickled. Proved for every other panel."
  },
  {
   "property": "C80",
   "status": "partial",
   "theorems": [
    "C80_same_results_after_save_partial",
    "C80_no_mass_after_save",
    "C80_refuted"
   ],
   "note": "Refuted for calc_kM: save() drops lam, and calc_kM does not rebuild it. Proved for calc_kC, calc_kG, calc_kT, calc_kA, calc_fint and calc_fext."
  },
  {
   "property": "C81",
   "status": "partial",
   "theorems": [
    "C81_stopped_save_partial",
    "C81_finished_save",
    "C81_refuted",
    "C81_failed_save_loses_the_file"
   ],
   "note": "Refuted: the file is emptied before the panel is written, so a stop or a pickling error loses the earlier panel. Proved: other files are untouched, and load never returns a panel other than the earlier or the new one."
  },
  {
   "property": "C82",
   "status": "partial",
   "theorems": [
    "C82_bay_with_a_panel_is_never_saved",
    "C82_empty_bay_is_loaded_partial",
    "C82_refuted"
   ],
   "note": "Refuted for every bay with at least one panel: save() assigns kC to the panels, which Shell.__slots__ forbids, and raises before writing. Proved for bays without panels."
  },
  {
   "property": "C83",
   "status": "partial",
   "theorems": [
    "C83_returned_uvw_partial",
    "C83_returned_strain_partial",
    "C83_returned_stress_partial",
    "C83_other_objects",
    "C83_after_clear",
    "C83_refuted"
   ],
   "note": "Refuted: the returned dictionaries are the attributes plot_mesh and fields of the panel, so a second call on the same panel replaces the values of the first. Proved: right after the call they hold the mesh and components of that call; no sequence of calls on other panels, nor on the same panel once it has new dictionaries, changes them."
  },
  {
   "property": "C84",
   "status": "partial",
   "theorems": [
    "C84_own_components_partial",
    "C84_refuted",
    "C84_failed_call_keeps_fields",
    "C84_failed_call_replaces_mesh"
   ],
   "note": "Refuted: components of an earlier call stay in the dictionary while the mesh is replaced, also when the later call fails. Proved for the components of the call itself, for any positions, number of threads and schedule; a call of uvw or strain that fails keeps the fields."
  },
  {
   "property": "C85",
   "status": "partial",
   "theorems": [
    "C85_fields_restored_partial",
    "C85_refuted",
    "C85_failed_plot"
   ],
   "note": "Refuted: the mesh is not restored, and a plot that fails leaves its own fields. Proved: after a plot that succeeds every component that had a value has the same value."
  },
  {
   "property": "C86",
   "status": "partial",
   "theorems": [
    "C86_plot_shows_component_partial",
    "C86_refuted",
    "C86_transverse_components_never_plotted"
   ],
   "note": "Refuted: NLgeom=False is not passed on for strains, so nonlinear strains are shown; the documented components gyz, gxz, Qy and Qx can never be plotted, after any sequence of calls. Proved for displacements, stresses and nonlinear strains."
  },
  {
   "property": "C87",
   "status": "partial",
   "theorems": [
    "C87_deformed_positions_partial",
    "C87_refuted"
   ],
   "note": "Refuted: the displacement u is subtracted. Proved: the exact positions drawn, (x - sf u, y + sf v), for every component and scale factor."
  },
  {
   "property": "C88",
   "status": "partial",
   "theorems": [
    "C88_group_limits_partial",
    "C88_refuted",
    "C88_transverse_components_never_plotted"
   ],
   "note": "Refuted: xs and ys are accepted and ignored; gyz, gxz, Qy and Qx always raise. Proved for the default grid and for Gauss points."
  },
  {
   "property": "C89",
   "status": "proved",
   "theorems": [
    "C89_laminate_is_orthotropic",
    "C89_resultants_uncoupled"
   ],
   "note": "The laminate library is a parameter. That the zeroing is made in place on the matrix of the laminate object is not modelled; the object is new at every rebuild."
  },
  {
   "property": "C90",
   "status": "proved",
   "theorems": [
    "C90_default_mesh",
    "C90_default_mesh_strain",
    "C90_default_mesh_stress",
    "C90_given_positions",
    "C90_different_shapes_refused",
    "C90_edges_included"
   ],
   "note": "When only one of xs and ys is given it is ignored and the default mesh is used: the theorems on the default mesh cover this case."
  },
  {
   "property": "C91",
   "status": "partial",
   "theorems": [
    "C91_skin_lies_in_the_flow_partial",
    "C91_sum_of_panels_partial",
    "C91_every_entry_partial",
    "C91_refuted"
   ],
   "note": "False in the code for every panel with terms in the skin, whatever the flow (C91_refuted): the skin panels are free at the lines where they are connected, but the kernel integrates the slope by parts and drops the boundary term. Proved: the matrix is the sum of what calc_kA of the nine panels gives in their slices, and for a flat skin what every entry is: the work of the pressure below the diagonal, minus the transposed work on and above it."
  },
  {
   "property": "C92",
   "status": "proved",
   "theorems": [
    "C92_outer_edges",
    "C92_no_other_support"
   ],
   "note": "Terms up to 30 because the statement covers the stored shape functions."
  },
  {
   "property": "C93",
   "status": "proved",
   "theorems": [
    "C93_cylinder",
    "C93_compressed_cylinder",
    "C93_blades"
   ],
   "note": ""
  },
  {
   "property": "C94",
   "status": "proved",
   "theorems": [
    "C94_panel_vibrations",
    "C94_panel_buckling",
    "C94_assembly_vibrations",
    "C94_assembly_buckling"
   ],
   "note": "The vibration theorems take the closed-form integrals as exact, as C18 and C22 do for the analytical matrices; the buckling theorem for a panel needs no such hypothesis."
  },
  {
   "property": "C95",
   "status": "proved",
   "theorems": [
    "C95_rigid_motions",
    "C95_nothing_else",
    "C95_as_the_supports_allow",
    "C95_unique_response",
    "C95_only_if_anchored"
   ],
   "note": "The tables are assumed to hold the exact integrals of the exact shape functions (C19 bounds the departure of the shipped ones)."
  },
  {
   "property": "C96",
   "status": "proved",
   "theorems": [
    "C96_states",
    "C96_frequencies",
    "C96_bound",
    "C96_stiffer_laminate"
   ],
   "note": "The tables are assumed to hold the exact integrals of the exact shape functions (C19 bounds the departure of the shipped ones). A frequency enters through the Rayleigh quotient; C96_bound links it to the eigenproblem."
  },
  {
   "property": "C97",
   "status": "partial",
   "theorems": [
    "C97_returned_load_is_zero_partial",
    "C97_refuted"
   ],
   "note": "Refuted: `lambda y: p.Nxx` reads the variable p when it is called, and the driver sets Nxx of every panel to zero after the static case, so the load vector of the returned assembly is zero for every input, while the static case was solved with the load of the five panels of the edge x = 0 (C73). The same code is in the flutter driver."
  },
  {
   "property": "C98",
   "status": "proved",
   "theorems": [
    "C98_nothing_else",
    "C98_unique_response"
   ],
   "note": "The tables are assumed to hold the exact integrals of the exact shape functions."
  },
  {
   "property": "C99",
   "status": "proved",
   "theorems": [
    "C99_constants",
    "C99_no_constants_before",
    "C99_least_energy",
    "C99_between_zero_and_prescribed"
   ],
   "note": "The vector is any solution: the solver is not modelled. Line constraints are the subject of C37, where the code is shown to be wrong."
  },
  {
   "property": "C100",
   "status": "proved",
   "theorems": [
    "C100_no_free_motion",
    "C100_unique_response"
   ],
   "note": "The radius of the skin may be given or not, but is not zero. The tables are assumed to hold the exact integrals of the exact shape functions."
  },
  {
   "property": "C101",
   "status": "proved",
   "theorems": [
    "C101_cylinder",
    "C101_blades"
   ],
   "note": "The tables are assumed to hold the exact integrals of the exact shape functions."
  },
  {
   "property": "C102",
   "status": "proved",
   "theorems": [
    "C102_exists",
    "C102_unique",
    "C102_reciprocity",
    "C102_point_reciprocity",
    "C102_least_energy",
    "C102_more_terms",
    "C102_stiffer_laminate",
    "C102_under_a_force"
   ],
   "note": "The vector is any solution: the solver is not modelled. The comparison of terms and supports is for forces at points, for which the quadrature along loaded lines plays no part."
  },
  {
   "property": "C103",
   "status": "proved",
   "theorems": [
    "C103_exists",
    "C103_unique",
    "C103_reciprocity",
    "C103_point_reciprocity",
    "C103_least_energy",
    "C103_more_connections",
    "C103_under_a_force",
    "C103_cylinder",
    "C103_blades",
    "C103_tstiffened"
   ],
   "note": "The vector is any solution: the solver is not modelled. Without connections see C104."
  },
  {
   "property": "C104",
   "status": "partial",
   "theorems": [
    "C104_refuted",
    "C104_internal_force_refuted",
    "C104_after_unfinalized_partial",
    "C104_no_list"
   ],
   "note": "Refuted: the code violates the property."
  },
  {
   "property": "C105",
   "status": "proved",
   "theorems": [
    "C105_stores_energy",
    "C105_nothing_else",
    "C105_held",
    "C105_exists",
    "C105_unique",
    "C105_reciprocity",
    "C105_least_energy",
    "C105_stiffeners_stiffen",
    "C105_added_1d",
    "C105_added_2d"
   ],
   "note": "The tables are assumed to hold the exact integrals of the exact shape functions. Loads are vectors given by the user: calc_fext of a bay does not work with forces (C77). The solver is not modelled."
  },
  {
   "property": "C106",
   "status": "proved",
   "theorems": [
    "C106_buckling",
    "C106_vibration",
    "C106_bay_modes_uncoupled",
    "C106_panel_modes_uncoupled"
   ],
   "note": "1D blade stiffeners are covered for buckling, not for vibration: their mass matrix is not a kinetic energy (C49)."
  },
  {
   "property": "C107",
   "status": "partial",
   "theorems": [
    "C107_powers_become_products",
    "C107_no_powers",
    "C107_array_powers_become_products_partial",
    "C107_array_powers_refuted",
    "C107_other_powers_refuted"
   ],
   "note": "Proved for pow2mult and, if no power is contained in the text of another, for mprint_as_array. Refuted for mprint_as_array in general: it does not put longer powers first, so x**2 + x**23 becomes (x*x) + (x*x)3. pow2mult of other powers: x**0 becomes (), 2.5**2 becomes 2.(5*5), x**2**3 becomes (x*x)**3, mypow(x, 2) becomes my(x*x), and pow(x, n) raises ValueError."
  },
  {
   "property": "C108",
   "status": "proved",
   "theorems": [
    "C108_lowest_buckling_load",
    "C108_lowest_buckling_load_of_state",
    "C108_compressed_panels_buckle",
    "C108_lowest_frequency",
    "C108_panels_vibrate",
    "C108_more_terms",
    "C108_stiffer_laminate"
   ],
   "note": "With the exact integrals in the tables, as C95, C96 and C102. The solvers of structsolve are not modelled: the theorem is about the eigenproblem that they receive."
  },
  {
   "property": "C109",
   "status": "partial",
   "theorems": [
    "C109_returns_partial",
    "C109_first_panel",
    "C109_skew",
    "C109_work_of_the_pressure_partial",
    "C109_given_beta_refuted",
    "C109_later_flow_refuted"
   ],
   "note": "Proved: the matrix is returned once the size is known, is skew, is that of the first panel in the flow of the bay, and is the work of the pressure for flat bays covered by their first panel. Refuted: beta of the bay is read but never handed on, and the first panel keeps the coefficients of the first call, so a flow assigned later has no effect. Missing: bays whose first panel does not cover them, curved bays (gamma enters as for single panels, C26)."
  },
  {
   "property": "C110",
   "status": "proved",
   "theorems": [
    "C110_lowest_buckling_load",
    "C110_compressed_bays_buckle",
    "C110_lowest_frequency",
    "C110_stiffeners_raise_the_load"
   ],
   "note": "The frequency part leaves out bays with 1D stiffeners: the mass matrix of their flanges is not shown positive. Exact arithmetic; the iterations that find the eigenvalues are not modelled."
  },
  {
   "property": "C111",
   "status": "proved",
   "theorems": [
    "C111_lowest_buckling_load",
    "C111_compressed_assemblies_buckle",
    "C111_lowest_frequency",
    "C111_connections_raise_both",
    "C111_cylinder"
   ],
   "note": "calc_kG and calc_kM may be called on any state of the same panels, in particular after calc_kC. Exact arithmetic; the iterations that find the eigenvalues are not modelled."
  },
  {
   "property": "C112",
   "status": "proved",
   "theorems": [
    "C112_buckling",
    "C112_frequency",
    "C112_debonding_lowers_both"
   ],
   "note": "The compression analysis is the one without the static case, where the geometric matrix comes from Nxx_skin, Nxx_base and Nxx_flange. Exact arithmetic; the iterations that find the eigenvalues are not modelled. Defects of other lengths divide the panel differently and are not compared."
  }
 ]
}