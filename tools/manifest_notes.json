{
 "C16": {
  "note": "Numerical integration, plate and cylinder, linear and linearised about a state."
 },
 "C17": {
  "note": "Finalized kC, kG, kM are symmetric; without finalization, whatever the loops put below the diagonal is the mirror image of the upper triangle (numerical and closed-form kernels)."
 },
 "C18": {
  "note": "Numerically integrated and closed-form stiffness; weights of the package's rules proved nonnegative."
 },
 "C21": {
  "note": "Numerical and closed-form kernels; also with the shipped, rounded tables (within 11e-15 of the terms)."
 },
 "C22": {
  "note": "Numerical and closed-form kernels, also with the shipped, rounded tables; the coupling sign of the offset is the code's (+offset)."
 },
 "C25": {
  "note": "kC, kG, kM, kA."
 },
 "C08": {
  "status": "partial",
  "note": "Refuted as stated: one point, or more than 64, silently integrates everything to 0. The partial theorem says exactly where the rules work and where they return zeros."
 },
 "C19": {
  "note": "Exact energy for tables holding the integrals; entrywise bound 1.1e-14 for the package's stored tables."
 },
 "C20": {
  "note": "kC (linear), kG (zero state), kM; exact rule exhibited for the cubic functions; with the shipped (rounded) rule, functions and tables the entries differ by at most 3e-11 times area, factors and coefficients, up to 12 terms."
 },
 "C29": {
  "note": "calc_fint has no linear mode; proved for states without deflection and for the derivative at rest."
 },
 "C30": {
  "status": "partial",
  "note": "Refuted as stated: the shear strain of the coded internal force contains w,x w,y twice. The partial theorem gives the gradient and the exact excess for every state and direction."
 },
 "C31": {
  "status": "partial",
  "note": "Refuted as stated, same cause as C30. The partial theorem gives the derivative of calc_fint as kT minus the applied-load part plus the exact excess."
 },
 "C04": {
  "note": "Exact for the exact shape functions; for the stored ones within 4e-9 (2e-7 for slopes) times the sum of absolute coefficients."
 },
 "C11": {
  "note": "Exact derivative for the exact shape functions; for the stored ones the derivative exists and differs by at most 3e-7 * 2/a * sum of absolute terms on the panel."
 },
 "C12": {
  "note": "Exact for the exact shape functions; explicit rounding bound for the stored ones. eyy uses 1/r whenever r is not 0, whatever the model."
 },
 "C13": {
  "status": "partial",
  "note": "Refuted as stated: gxy contains 2*w_x*w_y. The partial theorem gives the exact value of every component."
 },
 "C15": {
  "note": "A schedule is any reordering of all single stores into the result arrays."
 },
 "C32": {
  "note": "The sums along a side are proved equal to the integral for polynomial densities up to the rule's degree; with one term along a side (or more than 64) the line loads are lost, proved as a separate theorem."
 },
 "C35": {
  "note": "Distributed prescribed displacements additionally need a non-zero constant and, per component, both constant and function or neither."
 },
 "C36": {
  "note": "Any list of constraints; also calc_stiffness_point_constraint."
 },
 "C37": {
  "status": "partial",
  "note": "Refuted as stated: the penalties of u and v are placed on the coefficients of w. The partial theorems give the exact bilinear form for all constants and the intended one for w constants, for tables that hold the integrals."
 },
 "C38": {
  "note": "Lists of different panels (a panel listed twice keeps only its last slice)."
 },
 "C39": {
  "note": "kG and kM exactly; kC is the block-diagonal matrix plus the connection matrix (the package has no kC without connections)."
 },
 "C40": {
  "note": "SSxcte, SSycte, BFxcte, BFycte, SB and SB_TSL, through MultiDomain.get_kC_conn; tables holding the integrals; panels in the order of the assembly, or skin-skin connections of equal sides. With the shipped tables and functions each entry is within 4e-12 of the springs' stiffness (up to 12 terms, flags between -1 and 1, connected lines on the panels). A vector meets no stiffness exactly when nothing jumps, for continuous shape functions."
 },
 "C41": {
  "status": "partial",
  "note": "Refuted as stated: the first matrix is returned for ever. C40 covers the first call."
 },
 "C42": {
  "status": "partial",
  "note": "Refuted: definitions whose first panel comes later are changed in place and a second assembly using them gets another matrix. Proved: either order of listing gives the same matrix; definitions in order are unchanged."
 },
 "C43": {
  "note": "An unknown type (not reachable from get_kC_conn) returns None in the code and is not modelled."
 },
 "C44": {
  "status": "partial",
  "note": "Refuted: every call raises TypeError."
 },
 "C45": {
  "note": "Internal force with connections (the package has none without) and external force, slice by slice."
 },
 "C46": {
  "status": "partial",
  "note": "Refuted: a missing vector is taken from the first panel of the group for all of them. Proved when both are given."
 },
 "C53": {
  "status": "partial",
  "note": "Refuted: a later assembly moves the slices of shared panels. Proved for assemblies without common panels."
 },
 "C54": {
  "status": "partial",
  "note": "Refuted: the roles follow the order of the panels in the assembly. C40 covers the connections in order."
 },
 "C26": {
  "status": "partial",
  "note": "Refuted for gamma<>0 (entries below the diagonal get the opposite sign) and for ends free to deflect along the flow. Proved for gamma=0 with both ends held, for exact quadrature and exact shape functions; entries on and above the diagonal also for gamma<>0."
 },
 "C27": {
  "status": "partial",
  "note": "Refuted: beta and gamma stay on the panel after the first call and later changes of the flow are ignored. Proved for the first call."
 },
 "C28": {
  "status": "partial",
  "note": "Refuted for both models and every panel: calc_cA raises AttributeError, the function it calls does not exist."
 },
 "C50": {
  "status": "partial",
  "note": "Idempotence and the failure condition are proved. Keeping user values is refuted for ABD (overwritten) and for too small nx, ny (raised to m, n); proved for all other attributes."
 },
 "C51": {
  "status": "partial",
  "note": "Refuted for calc_fint and uvw, which accept longer vectors; shorter ones make calc_fint read out of bounds. Proved for calc_kC, calc_kG, calc_kT."
 },
 "C55": {
  "status": "partial",
  "note": "Refuted: plyt and laminaprop assigned after a calculation are ignored (proved for every panel). Proved for stack with the same number of plies and offset."
 },
 "C56": {
  "status": "partial",
  "note": "Proved for calc_kC, calc_kG, calc_kT, calc_fext for all histories, and for calc_kM, calc_fint on rebuilt panels. Refuted for calc_kM on new panels; calc_kA is C27."
 },
 "C23": {
  "status": "proved",
  "note": "kC, kG, kM and fint, in x and in y, linear and nonlinear, for one laminate (thickness, density) over the panel and a rule exact for the degree of the integrand; the stored functions are polynomials of that degree. The stored Gauss rules are exact to 1e-16 per coefficient (C03)."
 },
 "C24": {
  "status": "partial",
  "note": "Refuted for the default closed-form calculations: kC, kG and kM ignore the limits (proved for every panel). Proved for the numerical calculation."
 },
 "C57": {
  "status": "partial",
  "note": "Refuted: the default +1 of the upper limit is used as the coordinate 1, and an upper limit given alone is ignored (proved for every panel)."
 },
 "C52": {
  "status": "proved",
  "note": "Structure of the ring for every n>=2 (panels, widths, connections, degree two, connectedness) and, through the connection stiffness, zero energy for displacements continuous around the ring. n is a natural number; the drawing positions are not part of this statement."
 },
 "C58": {
  "status": "partial",
  "note": "Refuted: the function literals read the loop variable when calc_fext calls them, after the loop, so every panel gets the last entry; with blades, the load of the last blade. The driver with constant Nxx is right, and the static one for equal loads. The solvers lb and static are external and not modelled."
 },
 "C59": {
  "status": "partial",
  "note": "Refuted for every nonzero Nxx: the argument is not read and the load is the attribute Nxx of the last panel, 0. The perturbation load is applied as documented."
 },
 "C60": {
  "status": "proved",
  "note": "Structure for every n>=2 and energy of the connections."
 },
 "C47": {
  "status": "partial",
  "note": "Size, disjoint consecutive slices and absence of coupling between flanges are proved for every bay on which the calculations return. Refuted for a 2D stiffener with a pad only: get_size raises."
 },
 "C48": {
  "status": "proved",
  "note": "Work of the jumps, nonnegative, zero for compatible fields; any table and basis with the exact values."
 },
 "C49": {
  "status": "partial",
  "note": "Refuted: the coupling of deflection and axial motion is twice the kinetic one; witness with negative kinetic energy. The exact value of the matrix is proved."
 },
 "C61": {
  "status": "proved",
  "note": "For every bay built by any sequence of additions and calls."
 },
 "C62": {
  "status": "partial",
  "note": "calc_kC and calc_kG are total on completely defined bays; calc_kM without padded 1D stiffeners. Refuted for calc_kM: it never returns when a 1D stiffener has a pad."
 },
 "C63": {
  "status": "partial",
  "note": "Refuted: every panel counts as the whole skin, so a skin cut in two is twice as stiff. The factor is proved for every number of panels."
 },
 "C64": {
  "status": "partial",
  "note": "Refuted: limits and widths are ignored by the matrices (proved for every bay); a panel of no width is as stiff as the skin."
 },
 "C65": {
  "status": "proved",
  "note": "For every bay and every sequence of successful calls of the three."
 },
 "C66": {
  "status": "partial",
  "note": "Positive when S1 = 0, in particular for plies along the flange. Refuted in general (S1 formula)."
 },
 "C67": {
  "status": "partial",
  "note": "Refuted: the torsion constant has no modulus. Everything but the torsion is proportional."
 },
 "C68": {
  "status": "partial",
  "note": "Proved when the panels give a thickness per ply. Refuted when they give plyt: the offset is computed before the thicknesses are known."
 },
 "C69": {
  "status": "partial",
  "note": "Refuted: calc_cA never returns; calc_kA never returns as the first calculation."
 },
 "C70": {
  "status": "proved",
  "note": "Geometry, groups, flags and layout of the assembly for all dimensions; construction shared by the three functions (agreement of the boundary flags checked by tools/gen_tstiff.py)."
 },
 "C71": {
  "status": "proved",
  "note": "The list of connections is characterised exactly by the positions of the panels."
 },
 "C72": {
  "status": "proved",
  "note": "For basis and tables that integrate products of the basis (tables_integrate, as in C40)."
 },
 "C73": {
  "status": "proved",
  "note": "For every store in which the panels are as created (also after the stiffness was computed); integration along the edge with the rule of the code, whose error is C32's. The work is that of the load vector before its sign is changed for the solver."
 },
 "C74": {
  "status": "proved",
  "note": "Exact equality of ys with the panel limits inside the bay, as in the code; at the edges the tolerance of numpy.isclose (1e-8 + 1e-5|y|). Lines within the tolerance of both edges at once (width below the tolerance) are excluded."
 },
 "C75": {
  "status": "partial",
  "note": "Proved for the default mesh and for points given as one-dimensional arrays. Refuted for arrays of other shapes: they reach the compiled function without being flattened, so that even the mesh returned by uvw_skin is refused when given back."
 },
 "C76": {
  "status": "partial",
  "note": "Proved for the first stiffener of the list. Refuted for all others: get_size is called on the preceding stiffener object, which has no such method; no vector, points or region gives a result for si > 0."
 },
 "C77": {
  "status": "partial",
  "note": "Refuted: with a force on the skin the compiled function refuses the bay (it is not a Shell); with a 2D stiffener the attribute forces of its flange does not exist, and if the user assigns it, five rows are written into an array with three. A result is only possible without forces, and is then the zero vector of the right size."
 },
 "C78": {
  "status": "proved",
  "note": "Every kernel of the panels, connections, stiffeners and supports, for all numbers of terms and offsets; the arrays' lengths are transcribed by tools/gen_alloc.py. The external force routines and fields are covered by C51 and C75."
 },
 "C79": {
  "status": "partial",
  "note": "Refuted: a name in which '.Shell' occurs is written to one file and read from another, and a panel with a distributed prescribed displacement (or a load given by a lambda) cannot be pickled. Proved for every other panel."
 },
 "C80": {
  "status": "partial",
  "note": "Refuted for calc_kM: save() drops lam, and calc_kM does not rebuild it. Proved for calc_kC, calc_kG, calc_kT, calc_kA, calc_fint and calc_fext."
 },
 "C81": {
  "status": "partial",
  "note": "Refuted: the file is emptied before the panel is written, so a stop or a pickling error loses the earlier panel. Proved: other files are untouched, and load never returns a panel other than the earlier or the new one."
 },
 "C82": {
  "status": "partial",
  "note": "Refuted for every bay with at least one panel: save() assigns kC to the panels, which Shell.__slots__ forbids, and raises before writing. Proved for bays without panels."
 },
 "C83": {
  "status": "partial",
  "note": "Refuted: the returned dictionaries are the attributes plot_mesh and fields of the panel, so a second call on the same panel replaces the values of the first. Proved: right after the call they hold the mesh and components of that call; no sequence of calls on other panels, nor on the same panel once it has new dictionaries, changes them."
 },
 "C84": {
  "status": "partial",
  "note": "Refuted: components of an earlier call stay in the dictionary while the mesh is replaced, also when the later call fails. Proved for the components of the call itself, for any positions, number of threads and schedule; a call of uvw or strain that fails keeps the fields."
 },
 "C85": {
  "status": "partial",
  "note": "Refuted: the mesh is not restored, and a plot that fails leaves its own fields. Proved: after a plot that succeeds every component that had a value has the same value."
 },
 "C86": {
  "status": "partial",
  "note": "Refuted: NLgeom=False is not passed on for strains, so nonlinear strains are shown; the documented components gyz, gxz, Qy and Qx can never be plotted, after any sequence of calls. Proved for displacements, stresses and nonlinear strains."
 },
 "C87": {
  "status": "partial",
  "note": "Refuted: the displacement u is subtracted. Proved: the exact positions drawn, (x - sf u, y + sf v), for every component and scale factor."
 },
 "C88": {
  "status": "partial",
  "note": "Refuted: xs and ys are accepted and ignored; gyz, gxz, Qy and Qx always raise. Proved for the default grid and for Gauss points."
 },
 "C89": {
  "status": "proved",
  "note": "The laminate library is a parameter. That the zeroing is made in place on the matrix of the laminate object is not modelled; the object is new at every rebuild."
 },
 "C90": {
  "status": "proved",
  "note": "When only one of xs and ys is given it is ignored and the default mesh is used: the theorems on the default mesh cover this case."
 },
 "C91": {
  "status": "partial",
  "note": "False in the code for every panel with terms in the skin, whatever the flow (C91_refuted): the skin panels are free at the lines where they are connected, but the kernel integrates the slope by parts and drops the boundary term. Proved: the matrix is the sum of what calc_kA of the nine panels gives in their slices, and for a flat skin what every entry is: the work of the pressure below the diagonal, minus the transposed work on and above it."
 },
 "C92": {
  "status": "proved",
  "note": "Terms up to 30 because the statement covers the stored shape functions."
 },
 "C93": {
  "status": "proved",
  "note": ""
 },
 "C94": {
  "status": "proved",
  "note": "The vibration theorems take the closed-form integrals as exact, as C18 and C22 do for the analytical matrices; the buckling theorem for a panel needs no such hypothesis."
 },
 "C95": {
  "status": "proved",
  "note": "The tables are assumed to hold the exact integrals of the exact shape functions (C19 bounds the departure of the shipped ones)."
 },
 "C96": {
  "status": "proved",
  "note": "The tables are assumed to hold the exact integrals of the exact shape functions (C19 bounds the departure of the shipped ones). A frequency enters through the Rayleigh quotient; C96_bound links it to the eigenproblem."
 },
 "C97": {
  "status": "partial",
  "note": "Refuted: `lambda y: p.Nxx` reads the variable p when it is called, and the driver sets Nxx of every panel to zero after the static case, so the load vector of the returned assembly is zero for every input, while the static case was solved with the load of the five panels of the edge x = 0 (C73). The same code is in the flutter driver."
 },
 "C98": {
  "status": "proved",
  "note": "The tables are assumed to hold the exact integrals of the exact shape functions."
 },
 "C99": {
  "status": "proved",
  "note": "The vector is any solution: the solver is not modelled. Line constraints are the subject of C37, where the code is shown to be wrong."
 },
 "C100": {
  "status": "proved",
  "note": "The radius of the skin may be given or not, but is not zero. The tables are assumed to hold the exact integrals of the exact shape functions."
 },
 "C101": {
  "status": "proved",
  "note": "The tables are assumed to hold the exact integrals of the exact shape functions."
 },
 "C102": {
  "status": "proved",
  "note": "The vector is any solution: the solver is not modelled. The comparison of terms and supports is for forces at points, for which the quadrature along loaded lines plays no part."
 },
 "C103": {
  "status": "proved",
  "note": "The vector is any solution: the solver is not modelled. Without connections see C104."
 },
 "C104": {
  "status": "partial",
  "note": "Refuted: the code violates the property."
 },
 "C105": {
  "status": "proved",
  "note": "The tables are assumed to hold the exact integrals of the exact shape functions. Loads are vectors given by the user: calc_fext of a bay does not work with forces (C77). The solver is not modelled."
 },
 "C106": {
  "status": "proved",
  "note": "1D blade stiffeners are covered for buckling, not for vibration: their mass matrix is not a kinetic energy (C49)."
 },
 "C107": {
  "status": "partial",
  "note": "Proved for pow2mult and, if no power is contained in the text of another, for mprint_as_array. Refuted for mprint_as_array in general: it does not put longer powers first, so x**2 + x**23 becomes (x*x) + (x*x)3. pow2mult of other powers: x**0 becomes (), 2.5**2 becomes 2.(5*5), x**2**3 becomes (x*x)**3, mypow(x, 2) becomes my(x*x), and pow(x, n) raises ValueError."
 },
 "C108": {
  "status": "proved",
  "note": "With the exact integrals in the tables, as C95, C96 and C102. The solvers of structsolve are not modelled: the theorem is about the eigenproblem that they receive."
 },
 "C109": {
  "status": "partial",
  "note": "Proved: the matrix is returned once the size is known, is skew, is that of the first panel in the flow of the bay, and is the work of the pressure for flat bays covered by their first panel. Refuted: beta of the bay is read but never handed on, and the first panel keeps the coefficients of the first call, so a flow assigned later has no effect. Missing: bays whose first panel does not cover them, curved bays (gamma enters as for single panels, C26)."
 },
 "C110": {
  "status": "proved",
  "note": "The frequency part leaves out bays with 1D stiffeners: the mass matrix of their flanges is not shown positive. Exact arithmetic; the iterations that find the eigenvalues are not modelled."
 },
 "C111": {
  "status": "proved",
  "note": "calc_kG and calc_kM may be called on any state of the same panels, in particular after calc_kC. Exact arithmetic; the iterations that find the eigenvalues are not modelled."
 },
 "C112": {
  "status": "proved",
  "note": "The compression analysis is the one without the static case, where the geometric matrix comes from Nxx_skin, Nxx_base and Nxx_flange. Exact arithmetic; the iterations that find the eigenvalues are not modelled. Defects of other lengths divide the panel differently and are not compared."
 }
}