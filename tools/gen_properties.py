"""Writes /verif/properties.jsonl (one JSON object per line)."""
import json, os
P = []
def p(title, statement, quantifier, why, anchors):
    P.append(dict(id="C%02d" % (len(P)+1), title=title, statement=statement,
                  quantifier=quantifier, why_tests_cant=why, anchors=anchors))

# ---------------------------------------------------------------- Bardell basis
p("Tabulated shape functions are the Bardell polynomials",
  "calc_f(i, xi, xi1t, xi1r, xi2t, xi2r) differs from the exact Bardell hierarchical shape function of index i (scaled, for i<4, by its boundary flag) by at most 4e-9 for every xi in [-1,1], and each stored coefficient is the exact rational coefficient rounded to a relative error below 5e-15.",
  "every index 0<=i<30, every real xi in [-1,1], every value of the four flags",
  "xi and the flags range over a continuum; a test samples a few xi and a tolerance chosen by hand.",
  ["panels/core/src/bardell_functions.cpp:f", "panels/core/src/bardell_functions.cpp:vec_f", "panels/bardell.pyx"])
p("Tabulated derivatives are derivatives of the shape functions",
  "calc_fxi differs from d/dxi of the exact Bardell function by at most 2e-7, and the second-derivative routine from the exact second derivative by at most 1e-6, on all of [-1,1]; for the four boundary functions i=0..3 the routines are exactly the derivatives of the value routine.",
  "every index 0<=i<30, every real xi in [-1,1], every flag value",
  "Finite differencing at sample points cannot bound the error between sample points.",
  ["panels/core/src/bardell_functions.cpp:fp", "panels/core/src/bardell_functions.cpp:fpp", "panels/core/src/bardell_functions.cpp:vec_fp", "panels/core/src/bardell_functions.cpp:vec_fpp"])
p("Scalar and vector shape-function routines agree",
  "For every i<30 the i-th element written by the vector routine equals the scalar routine called with index i, for values, first and second derivatives; the scalar routine returns 0 for every other index.",
  "every index, every xi, every flag value",
  "The matrices use the vector routine and the loads/fields the scalar one; agreement must hold at every xi.",
  ["panels/core/src/bardell_functions.cpp"])
p("Boundary flags impose the boundary conditions",
  "If the translation (rotation) flag of an edge is 0 then, for every Ritz vector, the corresponding displacement (slope) of the reconstructed field is 0 at that edge for the exact shape functions, and is bounded by the table rounding times the 1-norm of the coefficients for the stored ones; with flag 1 it is exactly the coefficient of the boundary function.",
  "every Ritz vector, every m,n<=30, every position along the edge, every combination of the other flags",
  "A boundary condition is a statement about all fields in an infinite space and all points of the edge.",
  ["panels/core/src/bardell_functions.cpp", "panels/models/clpt_bardell_field.pyx:cfuvw", "panels/shell.py:Shell.__init__"])
p("Closed-form integral tables are the integrals of the shape functions",
  "integral_ff, integral_ffp, integral_ffpp, integral_fpfp, integral_fpfpp and integral_fppfpp return the exact integral over [-1,1] of the product of the two Bardell functions (or derivatives) with a relative error below 5e-15, and exactly 0 when the integral is 0.",
  "all 900 index pairs of the six tables and all values of the eight flags",
  "Flags are real-valued inputs and the comparison value is an integral, which a test can only approximate.",
  ["panels/core/src/bardell.cpp:integral_ff", "panels/bardell.pyx"])
p("Integral tables are symmetric under exchange of the two functions",
  "integral_ff, integral_fpfp and integral_fppfpp return the same number when the two indices are exchanged together with their flags.",
  "all index pairs and all flag values",
  "Symmetry of every assembled matrix depends on all 900 entries and on the flag placement in each.",
  ["panels/core/src/bardell.cpp"])
p("Gauss-Legendre tables integrate polynomials of degree 2n-1",
  "For n points, sum of weight*p(point) equals the integral of p over [-1,1] up to 1e-16 times the sum of the absolute coefficients of p; the points are increasing, inside (-1,1), symmetric, and the weights are positive.",
  "every n from 2 to 64, every polynomial p of degree at most 2n-1 with real coefficients",
  "The set of polynomials is infinite-dimensional in its coefficients; a test tries a few.",
  ["panels/core/src/legendre_gauss_quadrature.cpp:leggauss_quad", "panels/legendre_gauss_quadrature.pyx:get_points_weights"])
p("Every requested number of integration points integrates",
  "Whatever number of integration points the user requests, the routine either integrates constants correctly or reports an error.",
  "every number of points n",
  "Tests use a handful of n inside the table.",
  ["panels/core/src/legendre_gauss_quadrature.cpp:leggauss_quad", "panels/models/plate_clpt_donnell_bardell_num.pyx:fkC_num", "panels/shell_fext.py"])

# ---------------------------------------------------------------- fields
p("Degrees of freedom are laid out without collision",
  "The map from (i, j, component) to position in the Ritz vector is a bijection between {0..m-1}x{0..n-1}x{u,v,w} and {0..3mn-1}, and get_size returns 3*m*n.",
  "every m, n",
  "Injectivity and surjectivity for all sizes.",
  ["panels/shell.py:Shell.get_size", "panels/models/plate_clpt_donnell_bardell.pyx:fk0", "panels/models/clpt_bardell_field.pyx:cfuvw"])
p("Displacement field is linear in the Ritz vector",
  "uvw of a linear combination of Ritz vectors is the same combination of the fields; in particular the zero vector gives the zero field.",
  "all Ritz vectors, all scalars, all evaluation points, all m,n, all flags",
  "Linearity over a vector space.",
  ["panels/models/clpt_bardell_field.pyx:cfuvw", "panels/models/clpt_bardell_field.pyx:cfwx", "panels/models/clpt_bardell_field.pyx:cfwy", "panels/shell.py:Shell.uvw"])
p("Rotations are derivatives of the deflection",
  "phix and phiy returned by uvw are minus the partial derivatives of the returned w with respect to x and y: exactly for the exact shape functions, and up to the rounding of the stored coefficients for the stored ones.",
  "all Ritz vectors, every point, all positive a,b, all flags",
  "Derivative identity at every point.",
  ["panels/models/clpt_bardell_field.pyx:fuvw", "panels/models/clpt_bardell_field.pyx:cfwx"])
p("Linear strains are the Donnell strains of the displacement field",
  "With NLgeom=False, strain returns exx=u_x, eyy=v_y (+w/r for the cylindrical shell), gxy=u_y+v_x, kxx=-w_xx, kyy=-w_yy, kxy=-2w_xy of the field returned by uvw: exactly for the exact shape functions, and up to the rounding of the stored coefficients for the stored ones.",
  "all Ritz vectors, every point, all positive a,b, every r, all flags",
  "Derivative identity over a continuum of points and all vectors.",
  ["panels/models/clpt_bardell_field.pyx:cfstrain", "panels/shell.py:Shell.strain"])
p("Nonlinear strains are the von Karman strains",
  "With NLgeom=True, strain returns exx=u_x+w_x^2/2, eyy=v_y(+w/r)+w_y^2/2 and gxy=u_y+v_x+w_x*w_y.",
  "all Ritz vectors and points",
  "Quadratic identity for all fields.",
  ["panels/models/clpt_bardell_field.pyx:cfstrain", "panels/models/plate_clpt_donnell_bardell_num.pyx:fkG_num", "panels/models/plate_clpt_donnell_bardell_num.pyx:calc_fint"])
p("Stress resultants are the laminate law applied to the strains",
  "stress returns ABD times the strain vector returned by strain for the same point, and scales linearly with the laminate stiffness.",
  "all strain fields, all laminates F",
  "All 6x6 laminate matrices and all points.",
  ["panels/shell.py:Shell.stress"])
p("Field evaluation does not depend on the number of cores or on scheduling",
  "uvw and strain return, for each requested point, the value of the single-point evaluation, whatever num_cores and whatever order in which the parallel chunks run.",
  "every number of points, every num_cores>=1, every schedule of the chunks",
  "Schedules and chunk splits cannot be enumerated by tests.",
  ["panels/models/clpt_bardell_field.pyx:fuvw", "panels/models/clpt_bardell_field.pyx:fstrain"])

# ---------------------------------------------------------------- stiffness
p("Numerical stiffness matrix is the quadrature of the strain energy",
  "For the matrix kC computed by numerical integration, c'kC c equals the quadrature sum of strain(c)' ABD strain(c) with the strains returned by the strain API, for the plate and the cylindrical shell, also with a different ABD at each integration point.",
  "all Ritz vectors c, all m,n, all ABD fields with symmetric A, B, D, all integration rules, all flags, all integration windows",
  "Identity between a matrix with O(m^2n^2) entries and an energy for all vectors and sizes.",
  ["panels/models/plate_clpt_donnell_bardell_num.pyx:fkC_num", "panels/models/cylshell_clpt_donnell_bardell_num.pyx:fkC_num", "panels/shell.py:Shell.calc_kC"])
p("Stiffness matrices are symmetric",
  "The finalized kC, kG and kM are symmetric, and keeping only the upper triangle and mirroring loses nothing: the entries skipped by the assembly loops equal their mirror images.",
  "all sizes, all laminates, all flags, all integration rules",
  "Every entry for every size.",
  ["panels/models/plate_clpt_donnell_bardell.pyx", "panels/models/plate_clpt_donnell_bardell_num.pyx", "panels/models/cylshell_clpt_donnell_bardell.pyx", "panels/shell.py:Shell.calc_kC"])
p("Stiffness matrix is positive semidefinite",
  "If the laminate matrix ABD is positive semidefinite and the quadrature weights are nonnegative, c'kC c >= 0 for every c.",
  "all Ritz vectors, all laminates with PSD ABD, all sizes",
  "Universal over vectors.",
  ["panels/models/plate_clpt_donnell_bardell_num.pyx:fkC_num", "panels/models/cylshell_clpt_donnell_bardell_num.pyx:fkC_num", "panels/shell.py:Shell.calc_kC"])
p("Analytical stiffness matrix is the exact strain energy",
  "For the closed-form kC, c'kC c equals the double integral over the panel of strain' ABD strain (plate and cylindrical shell), when the integral tables are the exact integrals.",
  "all Ritz vectors, all m,n, all laminates, all a,b>0, r<>0, all flags",
  "Identity with an integral for all vectors.",
  ["panels/models/plate_clpt_donnell_bardell.pyx:fk0", "panels/models/cylshell_clpt_donnell_bardell.pyx:fk0"])
p("Analytical and numerical stiffness agree",
  "With a constant laminate, full integration window and an integration rule that is exact for the products of shape functions, the numerical kC, kG and kM equal the analytical ones entry by entry.",
  "all entries, sizes, laminates, flags and exact rules",
  "Agreement of every entry for all inputs.",
  ["panels/models/plate_clpt_donnell_bardell.pyx", "panels/models/plate_clpt_donnell_bardell_num.pyx", "panels/models/cylshell_clpt_donnell_bardell.pyx", "panels/models/cylshell_clpt_donnell_bardell_num.pyx"])
p("Geometric stiffness is the work of the membrane forces",
  "c'kG c equals the integral of Nxx*w_x^2 + 2*Nxy*w_x*w_y + Nyy*w_y^2 for constant membrane forces; the matrix acts on w only and is linear in (Nxx, Nyy, Nxy).",
  "all Ritz vectors, all membrane forces, all sizes and flags",
  "Identity for all vectors and loads.",
  ["panels/models/plate_clpt_donnell_bardell.pyx:fkG0", "panels/models/plate_clpt_donnell_bardell_num.pyx:fkG_num", "panels/shell.py:Shell.calc_kG"])
p("Mass matrix is the kinetic energy and is positive semidefinite",
  "c'kM c equals the integral of rho*h*(u^2+v^2+w^2 + 2d(u w_x+v w_y) + (d^2+kappa h^2)(w_x^2+w_y^2)) with the code's constant kappa=0.0833333333333333, hence is nonnegative for rho,h>=0.",
  "all Ritz vectors, all rho, h >= 0, all offsets d, all sizes and flags",
  "Universal over vectors and offsets.",
  ["panels/models/plate_clpt_donnell_bardell.pyx:fkM", "panels/models/plate_clpt_donnell_bardell_num.pyx:fkM_num", "panels/shell.py:Shell.calc_kM"])
p("Integration over adjacent windows adds up",
  "For the numerical kC (and kM, fint), the matrix for the window [x1,x3] is the sum of those for [x1,x2] and [x2,x3] (same in y), for an exact rule.",
  "every split point, all sizes, laminates, exact rules",
  "Every split position.",
  ["panels/models/plate_clpt_donnell_bardell_num.pyx:fkC_num", "panels/shell.py:Shell.calc_kC"])
p("Sub-domain limits are honoured by every matrix",
  "Setting x1,x2,y1,y2 on a Shell restricts kC, kG and kM to that sub-domain, so that splitting a panel in two adjacent sub-domains and adding their matrices reproduces the whole panel.",
  "every split position, every laminate",
  "Every split, and both integration paths.",
  ["panels/shell.py:Shell.calc_kC", "panels/shell.py:Shell.calc_kG", "panels/shell.py:Shell.calc_kM", "panels/stiffpanelbay/stiffpanelbay.py:StiffPanelBay.calc_kC"])
p("Matrices only touch their own block",
  "kC, kG, kM and kA of a panel placed at (row0, col0) in a matrix of a given size have no entry outside rows row0..row0+3mn-1 and columns col0..col0+3mn-1.",
  "all row0, col0, sizes",
  "All placements and sizes.",
  ["panels/models/plate_clpt_donnell_bardell.pyx", "panels/shell.py:Shell.calc_kC"])
p("Aerodynamic matrix represents the piston-theory operator",
  "c'.kA.d equals the work of the aerodynamic pressure beta*w_x (flow x), beta*w_y (flow y) and gamma*w of the field d on the field c.",
  "all pairs of Ritz vectors, all beta, gamma, all boundary conditions",
  "All bilinear pairs and boundary conditions, including free edges and curvature.",
  ["panels/models/plate_clpt_donnell_bardell_num.pyx:fkAx_num", "panels/models/cylshell_clpt_donnell_bardell.pyx:fkAx", "panels/shell.py:Shell.calc_kA"])
p("Aerodynamic matrix follows the current flow parameters",
  "calc_kA uses the air speed, density and Mach number stored on the panel at the time of the call.",
  "every history of parameter changes and calls",
  "Histories.",
  ["panels/shell.py:Shell.calc_kA"])
p("Aerodynamic damping matrix can be computed",
  "calc_cA returns a matrix for every registered model.",
  "every model and panel",
  "Every model in the database.",
  ["panels/shell.py:Shell.calc_cA", "panels/modelDB.py", "panels/stiffpanelbay/stiffpanelbay.py:StiffPanelBay.calc_cA"])

# ---------------------------------------------------------------- internal forces
p("Linear internal force is stiffness times displacement",
  "For every Ritz vector c whose deflection coefficients are zero calc_fint(c) equals kC c, kC being the numerically integrated linear stiffness with the same rule, window and laminate; and the derivative of calc_fint at c=0 in every direction d, deflection included, is kC d (calc_fint itself is always geometrically nonlinear).",
  "all Ritz vectors, sizes, laminates, rules",
  "Universal over vectors.",
  ["panels/models/plate_clpt_donnell_bardell_num.pyx:calc_fint", "panels/models/cylshell_clpt_donnell_bardell_num.pyx:calc_fint", "panels/shell.py:Shell.calc_fint"])
p("Internal force is the gradient of the strain energy",
  "calc_fint(c) is the gradient with respect to c of half the quadrature sum of strain(c)' ABD strain(c).",
  "all Ritz vectors, directions, laminates",
  "Derivative in every direction at every state.",
  ["panels/models/plate_clpt_donnell_bardell_num.pyx:calc_fint", "panels/models/clpt_bardell_field.pyx:cfstrain"])
p("Tangent stiffness is the Jacobian of the internal force",
  "kT(c) = kC(c, NLgeom) + kG(c, NLgeom) is the derivative of calc_fint at c in every direction.",
  "all Ritz vectors c, all directions, all laminates",
  "Newton iterations visit arbitrary states; finite differences at one state cannot establish it.",
  ["panels/shell.py:Shell.calc_kT", "panels/models/plate_clpt_donnell_bardell_num.pyx:fkC_num", "panels/models/plate_clpt_donnell_bardell_num.pyx:fkG_num", "panels/models/plate_clpt_donnell_bardell_num.pyx:calc_fint"])

# ---------------------------------------------------------------- loads
p("External force vector does the work of the loads",
  "For every Ritz vector c, fext.c equals the sum over point loads of fx*u+fy*v+fz*w at the load points, plus the quadrature of the distributed loads times the displacement along their lines.",
  "all Ritz vectors, all load lists, all points",
  "Universal over vectors and load lists.",
  ["panels/shell.py:Shell.calc_fext", "panels/shell_fext.py", "panels/models/clpt_bardell_field.pyx:fg"])
p("Load incrementation and superposition",
  "calc_fext(inc) = constant part + inc times incremented part; it is additive over the load lists and independent of the order in which loads were added.",
  "all inc, all load lists and their permutations",
  "Permutations and real-valued increments.",
  ["panels/shell.py:Shell.calc_fext", "panels/shell.py:Shell.add_point_load", "panels/shell_fext.py"])
p("External force vector only touches the panel's slice",
  "calc_fext(size, col0) is zero outside positions col0..col0+3mn-1 and its slice does not depend on size or col0.",
  "all sizes and offsets",
  "All offsets.",
  ["panels/shell.py:Shell.calc_fext"])
p("Load and prescribed-displacement definitions are validated",
  "add_distr_load_fixed_x/_y reject a definition whose functions are all missing; add_distr_pd_fixed_x/_y reject one with no non-zero penalty constant or with a constant given without its function or the reverse. A rejected call raises ValueError and changes nothing. After any history of calls calc_fext accepts the loads and the force vector is that of the accepted definitions, each scaled by inc unless it was added with cte.",
  "all argument combinations and all previous histories",
  "Histories of calls.",
  ["panels/shell.py:Shell.add_distr_load_fixed_x", "panels/shell.py:Shell.add_distr_pd_fixed_x", "panels/shell.py:Shell.add_point_pd"])
p("Penalty point constraints pull to the prescribed displacement",
  "The constraint matrix of add_point_pd and the corresponding force satisfy K c - f = sum k*(displacement at the point - prescribed)*shape, so the quadratic form of K is sum k*displacement^2 >= 0 and the residual vanishes for a field that meets the prescribed displacements.",
  "all Ritz vectors, all lists of constraints, all penalty constants",
  "Universal over vectors and lists.",
  ["panels/shell.py:Shell.calc_stiffness_point_constraint", "panels/shell.py:Shell.calc_fext", "panels/multidomain/connections/kCpd.pyx"])
p("Penalty line constraints act on the prescribed component",
  "The stiffness produced by add_distr_pd_fixed_x/_y with penalties ku, kv, kw has quadratic form equal to the integral along the line of ku*u^2+kv*v^2+kw*w^2.",
  "all Ritz vectors and penalties",
  "Universal over vectors.",
  ["panels/multidomain/connections/kCpd.pyx:fkCld_xcte", "panels/multidomain/connections/kCpd.pyx:fkCld_ycte", "panels/shell.py:Shell.calc_kC"])

# ---------------------------------------------------------------- multidomain
p("Panels of an assembly occupy consecutive disjoint slices",
  "Creating a MultiDomain from different panels gives them consecutive, disjoint slices of the global vector, in the order of the list, that cover exactly 0..size-1, where size is the sum of the panel sizes, and changes nothing else in the panels; each panel's part of a vector put together in that order is recovered unchanged, and the fields of the assembly are the fields of each panel of the group on its part of the vector.",
  "every list of different panels of every size",
  "All assemblies.",
  ["panels/multidomain/multidomain.py:MultiDomain.get_size", "panels/multidomain/multidomain.py:MultiDomain.calc_kC"])
p("Assembled matrices are block diagonal apart from the connections",
  "The global kC without connections (and kG, kM) evaluated on any vector is the sum of the panels' own quadratic forms on their slices, so panels do not interact except through connections.",
  "every assembly and every vector",
  "All assemblies.",
  ["panels/multidomain/multidomain.py:MultiDomain.calc_kC", "panels/multidomain/multidomain.py:MultiDomain.calc_kG", "panels/multidomain/multidomain.py:MultiDomain.calc_kM"])
p("Connection stiffness is the penalty energy of the displacement mismatch",
  "For each connection type (SSxcte, SSycte, BFxcte, BFycte, SB) the quadratic form of the connection matrix is the integral along the connection of kt*|displacement mismatch|^2 + kr*(rotation mismatch)^2, hence nonnegative, and zero on compatible fields.",
  "all pairs of fields, all penalties kt,kr>0, all sizes, all flags",
  "Universal over pairs of fields.",
  ["panels/multidomain/connections/kCSSxcte.pyx", "panels/multidomain/connections/kCSSycte.pyx", "panels/multidomain/connections/kCBFxcte.pyx", "panels/multidomain/connections/kCBFycte.pyx", "panels/multidomain/connections/kCSB.pyx"])
p("Connection matrix reflects the current connections",
  "get_kC_conn(conn) returns the stiffness of the connections passed to that call, whatever was computed before.",
  "every history of calls",
  "Histories and cached state.",
  ["panels/multidomain/multidomain.py:MultiDomain.get_kC_conn"])
p("Connection definitions are not modified and their orientation is irrelevant",
  "Computing the connection stiffness leaves the user's connection definitions unchanged, and listing the two panels of a line connection in either order (with their positions) gives the same matrix.",
  "every assembly and connection list",
  "Histories and all orientations.",
  ["panels/multidomain/multidomain.py:MultiDomain.get_kC_conn"])
p("Penalty constants are symmetric, positive and bounded by the softer panel",
  "calc_kt_kr gives the same constants with the panels exchanged for the line connections, positive values for positive stiffness, and kt and kr not larger than four times the stiffness of the softer laminate divided by the sum of the thicknesses.",
  "all pairs of laminates",
  "All laminate stiffness values.",
  ["panels/multidomain/connections/penalties.py:calc_kt_kr"])
p("Tangent stiffness of an assembly can be computed",
  "MultiDomain.calc_kT returns kC + kG for every assembly.",
  "every assembly and vector",
  "A call that can never succeed is invisible to tests that do not make it; the claim is for all arguments.",
  ["panels/multidomain/multidomain.py:MultiDomain.calc_kT", "panels/multidomain/multidomain.py:MultiDomain.calc_kC"])
p("Assembly internal and external forces are the sums of the panels' own",
  "MultiDomain.calc_fint(c) restricted to a panel's slice is that panel's fint of its slice plus the connection force kC_conn c; calc_fext places each panel's fext in its slice.",
  "every assembly and vector",
  "All assemblies.",
  ["panels/multidomain/multidomain.py:MultiDomain.calc_fint", "panels/multidomain/multidomain.py:MultiDomain.calc_fext"])
p("Per-panel evaluation options do not leak between panels",
  "When the fields of an assembly are evaluated and the coordinates along one direction are not given, each panel of the group is sampled over its own length; when they are given, every panel of the group is sampled at them.",
  "every assembly, group and vector",
  "All assemblies with different panels.",
  ["panels/multidomain/multidomain.py:MultiDomain.uvw_gauss_points", "panels/multidomain/multidomain.py:MultiDomain.strain_gauss_points", "panels/multidomain/multidomain.py:MultiDomain.stress_gauss_points"])

# ---------------------------------------------------------------- stiffened bays, cylinder, state
p("Stiffened bay size and offsets are consistent",
  "get_size of a StiffPanelBay is the skin size plus the flange sizes and the flanges of its 2D stiffeners occupy consecutive disjoint slices after the skin.",
  "every bay",
  "All stiffener lists.",
  ["panels/stiffpanelbay/stiffpanelbay.py:StiffPanelBay.get_size", "panels/stiffpanelbay/stiffpanelbay.py:StiffPanelBay.calc_kC"])
p("Skin-flange connection energy of 2D blade stiffeners is nonnegative",
  "The sum of the fkCss, fkCsf and fkCff contributions is the integral of kt*|mismatch|^2 + kr*(slope mismatch)^2 between the skin at y=ys and the flange root, hence nonnegative and zero for compatible fields.",
  "all pairs of fields, penalties, sizes",
  "Universal over fields.",
  ["panels/stiffener/models/bladestiff2d_clt_donnell_bardell.pyx"])
p("Flange mass of 1D blade stiffeners is a nonnegative kinetic energy",
  "The mass contribution of a 1D blade stiffener is the kinetic energy of the offset flange, hence positive semidefinite for nonnegative density and dimensions.",
  "all Ritz vectors, all flange dimensions",
  "Universal over vectors and dimensions.",
  ["panels/stiffener/models/bladestiff1d_clt_donnell_bardell.pyx:fkMf", "panels/stiffener/bladestiff1d.py"])
p("Rebuilding a panel is idempotent and validates its inputs",
  "_rebuild applied twice equals applied once; it fails with an error exactly when no model, stacking or material is available, and fills missing defaults without changing values the user set.",
  "all panel attribute combinations",
  "All attribute combinations and histories.",
  ["panels/shell.py:Shell._rebuild", "panels/shell.py:Shell.__init__"])
p("Ritz vectors of the wrong size are rejected",
  "Every API taking a Ritz vector raises an error unless its length equals the expected size, and otherwise uses it as is.",
  "all vectors and sizes",
  "All lengths.",
  ["panels/shell.py:check_c"])
p("A cylinder assembly closes into a ring",
  "create_cylinder_assy with n>=2 panels connects each panel to the next and the last to the first: every panel appears in exactly two connections, the connection graph is one cycle, and the panel widths add up to the circumference.",
  "every number of panels n>=2",
  "All n.",
  ["panels/multidomain/cylinder.py:create_cylinder_assy"])

# ---------------------------------------------------------------- added while modelling the assemblies
p("Assemblies do not disturb each other",
  "The fields and matrices of a MultiDomain do not depend on other MultiDomain objects created later, including ones that share panels with it.",
  "every pair of assemblies and every history of creations",
  "Histories; the second assembly is created by unrelated code.",
  ["panels/multidomain/multidomain.py:MultiDomain.__init__", "panels/multidomain/multidomain.py:MultiDomain.uvw"])
p("The roles of the two panels of a base-flange connection are those given",
  "In a BFycte, BFxcte connection p1 is the base and p2 the flange wherever the two panels stand in the assembly: the connection matrix is the work of the displacement jumps of that connection.",
  "every assembly, every order of its panels, all pairs of fields",
  "All orders of the panels and all fields.",
  ["panels/multidomain/multidomain.py:MultiDomain.get_kC_conn", "panels/multidomain/connections/kCBFycte.pyx", "panels/multidomain/connections/kCBFxcte.pyx"])

# ---------------------------------------------------------------- added while modelling histories of calls
p("A matrix follows the current definition of the panel",
  "calc_kC returns the matrix of the attributes the panel has at the time of the call: assigning stack, offset, plyt or laminaprop after a calculation has the same effect as having defined the panel so.",
  "every panel, every earlier calculation, every new value",
  "Histories of calculations and assignments.",
  ["panels/shell.py:Shell._rebuild", "panels/shell.py:Shell.calc_kC"])
p("Results do not depend on earlier calculations",
  "The result, or the error, of a calculation on a panel whose attributes the user does not change is the same whatever calculations were made on it before, and whether these succeeded or failed.",
  "every panel, every finite sequence of calls with all their arguments",
  "All sequences of calls.",
  ["panels/shell.py:Shell.calc_kC", "panels/shell.py:Shell.calc_kG", "panels/shell.py:Shell.calc_kT", "panels/shell.py:Shell.calc_kM", "panels/shell.py:Shell.calc_fint", "panels/shell.py:Shell.calc_fext"])

# ---------------------------------------------------------------- added while modelling the limits
p("A limit left at its default means the edge of the panel",
  "With x1 given and x2 left at its default the numerical matrices are integrated from x1 to a, with x2 given and x1 left at its default from 0 to x2, and the same in y.",
  "every panel, every pair of limits of which one is left at its default",
  "All lengths and limits; panels of unit length hide the difference.",
  ["panels/shell.py:Shell.__init__", "panels/models/plate_clpt_donnell_bardell_num.pyx:fkC_num", "panels/models/cylshell_clpt_donnell_bardell_num.pyx:fkC_num"])

# ---------------------------------------------------------------- added while modelling the cylinders
p("The static buckling drivers of cylinders load each panel with its own Nxx",
  "cylinder_compression_lb_Nxx_from_static applies the load Nxxs[i] to the edge of panel i, and the driver for cylinders with blades applies Nxxs_skin[i] to the skin panel i and Nxxs_blade[i] to the blade i.",
  "every list of loads, every number of panels",
  "All lists; the repository tests only use lists of equal loads.",
  ["panels/multidomain/cylinder.py:cylinder_compression_lb_Nxx_from_static", "panels/multidomain/cylinder_blade_stiffened.py:cylinder_blade_stiffened_compression_lb_Nxx_from_static", "panels/multidomain/cylinder.py:cylinder_compression_lb_Nxx_cte"])
p("The perturbation-load driver applies the axial load it is given",
  "cylinder_spla loads every panel of the cylinder with the axial compression load Nxx and the middle of one panel with the perturbation load.",
  "every Nxx, every cylinder",
  "All loads; the effect of a load of zero cannot be seen in a single run.",
  ["panels/multidomain/cylinder.py:cylinder_spla"])
p("A cylinder with blades closes into a ring with one blade on each panel",
  "create_cylinder_blade_stiffened with n>=2 panels closes the skin panels into a ring, attaches the root of blade i to the first edge of panel i, and blade i to nothing else; displacements that go on smoothly around the ring and from skin to blade have no connection energy.",
  "every number of panels n>=2, all dimensions, all fields",
  "All n and all fields.",
  ["panels/multidomain/cylinder_blade_stiffened.py:create_cylinder_blade_stiffened"])

# ---------------------------------------------------------------- added while modelling stiffeners and bays
B, S1, S2 = "panels/stiffpanelbay/stiffpanelbay.py:StiffPanelBay", "panels/stiffener/bladestiff1d.py:BladeStiff1D", "panels/stiffener/bladestiff2d.py:BladeStiff2D"
p("The matrices of a stiffened bay are the work of its parts",
  "When calc_kC, calc_kG or calc_kM of a StiffPanelBay returns, the matrix is the sum of what each panel, each pad and each flange does by itself, placed at its own constants, plus the springs between skin and flanges.",
  "every bay built by any sequence of additions and calls, all Ritz vectors",
  "All numbers and orders of panels and stiffeners and all histories.",
  [B + ".calc_kC", B + ".calc_kG", B + ".calc_kM", S1 + ".calc_kC", S2 + ".calc_kC"])
p("The matrices of a well-defined bay are returned",
  "calc_kC, calc_kG and calc_kM return a matrix, and raise nothing, for every bay whose panels and stiffeners are completely defined.",
  "every completely defined bay",
  "All combinations of panels and stiffeners.",
  [B + ".calc_kC", B + ".calc_kG", B + ".calc_kM", S1 + ".calc_kM"])
p("Dividing the skin of a bay into panels does not change it",
  "A bay whose skin is given as one panel and the same bay with the skin cut at some y into two panels of the same laminate have the same stiffness matrix.",
  "every division of every skin",
  "All divisions and skins.",
  [B + ".add_panel", B + ".calc_kC"])
p("Panels and pads of a bay act between their limits",
  "A panel of a bay contributes only what lies between its y1 and y2 and a pad of a 1D stiffener what lies under its width bb: other limits give other matrices and a panel of no width gives nothing.",
  "every bay, all limits and widths",
  "All limits.",
  [B + ".calc_kC", B + ".calc_kM", S1 + "._rebuild"])
p("The matrices of a bay do not depend on earlier calls",
  "calc_kC, calc_kG and calc_kM of a bay return the same matrix whichever of them were called before, how often and in which order.",
  "every bay, every finite sequence of calls",
  "All sequences of calls.",
  [B + ".calc_kC", B + ".calc_kG", B + ".calc_kM", B + "._rebuild"])
p("The flange of a 1D blade stiffener resists every deformation",
  "The stiffness of the flange of a 1D stiffener made of plies with positive definite stiffness is positive semidefinite.",
  "all plies, dimensions and Ritz vectors",
  "All materials and vectors.",
  [S1 + "._rebuild", "panels/stiffener/models/bladestiff1d_clt_donnell_bardell.pyx:fkCf"])
p("The stiffness of a 1D flange is proportional to its material",
  "Multiplying every modulus of the plies of a 1D flange by k multiplies its stiffness matrix by k.",
  "all plies, dimensions and factors",
  "All factors and materials.",
  [S1 + "._rebuild", "panels/stiffener/models/bladestiff1d_clt_donnell_bardell.pyx:fkCf"])
p("The pad of a 2D stiffener lies against the skin",
  "The mid-surface of the pad of a 2D stiffener lies half the skin thickness plus half the pad thickness below the mid-surface of the skin.",
  "every bay, every pad, either way of giving the thickness of the skin",
  "All definitions of skin and pad.",
  [B + ".add_bladestiff2d", S2 + ".__init__"])
p("The aerodynamic matrices of a bay can be computed",
  "calc_kA and calc_cA of a bay with complete flow data return a matrix, also as the first calculation on the bay.",
  "every bay, every flow",
  "All bays.",
  [B + ".calc_kA", B + ".calc_cA"])

TS = ["panels/multidomain/tstiff2d_1stiff_compression.py:tstiff2d_1stiff_compression", "panels/multidomain/tstiff2d_1stiff_freq.py:tstiff2d_1stiff_freq", "panels/multidomain/tstiff2d_1stiff_flutter.py:tstiff2d_1stiff_flutter"]
p("The fifteen panels of a T-stiffened panel fit together",
  "In the assembly returned by the T-stiffener functions the nine skin panels cover the rectangle a x b without overlap, the three base panels cover the strip of width bb about ys, and the three flange panels go along the whole length. The outer edges of the skin are supported. The edges along which panels meet are free.",
  "all dimensions with the base inside the skin and the defect shorter than the panel",
  "All dimensions and defect sizes.",
  TS)
p("Panels of a T-stiffened panel are connected exactly where they meet",
  "The connections of the assembly are those that the positions of the panels ask for, each once: neighbouring panels of the skin, base or flange along their common edge, base on skin over the whole common area except where debonded, flange on the middle line of the base. Skin and base are joined at mid-length if and only if the defect size is zero.",
  "all dimensions and defect sizes",
  "All dimensions and defect sizes.",
  TS)
p("Connections of a T-stiffened panel resist relative displacements only",
  "The connection stiffness of the assembly is symmetric, its energy is never negative and is the sum of the works of the connections, and it vanishes for displacements in which the skin, the base and the flange are each smooth, the base follows the face of the skin outside the defect, and the root of the flange follows the base.",
  "all dimensions, laminates, numbers of terms and Ritz vectors",
  "All vectors, dimensions and materials.",
  TS + ["panels/multidomain/multidomain.py:MultiDomain.get_kC_conn"])
p("The compression load of a T-stiffened panel acts on the loaded edge",
  "With run_static_case the load vector does the work of Nxx of each panel along the edge x = 0, for the panels at this edge and no others, and the total axial force is Nxx_skin b + Nxx_base bb + Nxx_flange bf.",
  "all dimensions, loads, Ritz vectors",
  "All loads and vectors.",
  TS[:1])

p("A stiffener of a bay is attached to the panels on both sides of its line",
  "add_bladestiff1d and add_bladestiff2d at a position ys inside the bay attach the stiffener to the panel that ends at ys and to the panel that begins at ys (the last added of each), and raise RuntimeError exactly when one of them is missing. At an edge of the bay both are the panel of this edge. In a skin divided into strips a stiffener on a dividing line holds the two strips that meet there, and the panels are left as they were.",
  "all bays, panels and positions",
  "All divisions of the skin and all positions.",
  [B + ".add_bladestiff1d", B + ".add_bladestiff2d"])
p("The skin displacements of a bay are those of the skin constants at the requested points",
  "uvw_skin with a full vector of Ritz constants returns u, v, w, phix, phiy of the skin, computed from the first 3*m*n constants, at the points asked for, given in any shape or left to the default mesh; a vector of another length raises ValueError; the bay keeps its data.",
  "all bays, vectors, points, mesh sizes, numbers of cores and schedules of the threads",
  "All vectors, points and thread schedules.",
  ["panels/stiffpanelbay/stiffpanelbay.py:StiffPanelBay.uvw_skin", "panels/models/clpt_bardell_field.pyx:fuvw"])
p("Each stiffener of a bay can be queried for its flange displacements",
  "uvw_stiffener(c, si, region='flange') returns the displacements of the flange of the stiffener si, computed from its own constants in the full vector, for every 2D stiffener of the bay.",
  "all bays, positions of stiffeners, vectors and points",
  "All lists of stiffeners, in any order.",
  ["panels/stiffpanelbay/stiffpanelbay.py:StiffPanelBay.uvw_stiffener"])
p("The load vector of a bay does the work of its forces",
  "calc_fext of a bay returns a vector of the size of the bay whose product with any Ritz vector is the work of the point forces given for the skin and the flanges.",
  "all bays, forces on skin and flanges, Ritz vectors",
  "All forces and vectors.",
  ["panels/stiffpanelbay/stiffpanelbay.py:StiffPanelBay.calc_fext", "panels/models/clpt_bardell_field.pyx:fg"])
p("Assembly stays inside the memory it allocates",
  "Whatever the numbers of terms, the position in the global matrix, the laminate, the load and the integration rule, computing a stiffness, initial stress, mass, aerodynamic, connection, stiffener or support matrix writes no more entries than the arrays allocated for it hold, and the internal force vector is updated only at positions of the panel that exist in the vector returned and in the vector given.",
  "every panel, pair of panels and stiffener with any numbers of terms; every row and column offset; every integration point and every order of integration; every accepted call of calc_fint",
  "The compiled loops run with bounds checking switched off: writing one entry too many corrupts memory silently and only for some numbers of terms and offsets, so that a test that passes says nothing about other sizes.",
  ["panels/models/plate_clpt_donnell_bardell.pyx: fk0, fkG0, fkM, fkAx, fkAy, fcA", "panels/models/plate_clpt_donnell_bardell_num.pyx: fkC_num, fkG_num, fkM_num, fkAx_num, fkAy_num, calc_fint", "panels/models/cylshell_clpt_donnell_bardell.pyx", "panels/models/cylshell_clpt_donnell_bardell_num.pyx", "panels/multidomain/connections: kCSSxcte.pyx, kCSSycte.pyx, kCBFxcte.pyx, kCBFycte.pyx, kCSB.pyx, kCpd.pyx", "panels/stiffener/models: bladestiff1d_clt_donnell_bardell.pyx, bladestiff2d_clt_donnell_bardell.pyx"])
p("A saved panel is loaded back",
  "After p.save(), load(p.name) and load(p.name + '.Shell') return a panel with the definition, settings and loads of p.",
  "every panel, name, set of loads and disk on which the file can be written",
  "the loss depends on the name and on how the loads were defined, so a test with one plain panel does not see it",
  ["panels/shell.py: load, Shell.save, Shell._clear_matrices, Shell.add_distr_pd_fixed_x, Shell.add_distr_load_fixed_x"])
p("Saving a panel does not change what it calculates",
  "The results of the calculations of a panel after save(), and of the panel read from the file, are those before save().",
  "every panel, argument list and environment",
  "save() clears part of the object, whether a later call needs that part depends on the call and on its arguments",
  ["panels/shell.py: Shell.save, Shell._clear_matrices, calc_kC, calc_kG, calc_kT, calc_kM, calc_kA, calc_fint, calc_fext"])
p("A save that is interrupted or fails leaves the earlier file",
  "If save() is stopped at any point or raises, load returns what it returned before, or the new panel.",
  "every panel, disk and point at which the program stops",
  "crash points cannot be enumerated by tests",
  ["panels/shell.py: Shell.save, load"])
p("A stiffened bay can be saved and loaded",
  "bay.save() writes a file from which load returns the bay.",
  "every bay, name and disk on which the file can be written",
  "must hold for every bay; an empty one is saved",
  ["panels/stiffpanelbay/stiffpanelbay.py: StiffPanelBay.save, StiffPanelBay._clear_matrices, load", "panels/shell.py: Shell.__slots__"])
p("Results of a field call stay as returned",
  "The mesh and the fields returned by uvw, strain or stress hold what that call computed, and keep holding it whatever is called afterwards on this or another panel.",
  "every panel, Ritz vector, set of positions, history and later sequence of uvw, strain, stress and plot calls",
  "the later values appear only in histories of two calls on the same object, and no finite set of call sequences covers calls on other objects",
  ["panels/shell.py: Shell.uvw, Shell.strain, Shell.stress, Shell._clear_matrices", "panels/plot_shell.py: plot_shell"])
p("Returned fields belong to the returned mesh",
  "Every component in the dictionary of fields returned by uvw, strain or stress was evaluated at the points of the mesh returned with it, so that it has its shape and size.",
  "every panel, history of calls, Ritz vector and set of positions",
  "stale components appear only when the positions of two calls differ",
  ["panels/shell.py: Shell.uvw, Shell.strain, Shell.stress"])
p("Plotting leaves the stored results alone",
  "Plotting a panel leaves the stored mesh and fields as they were before.",
  "every panel, component, positions, deformation factor, limits and prior state of the dictionaries",
  "needs all prior states; the plot functions are not run by unit tests on stored results",
  ["panels/plot_shell.py: plot_shell", "panels/shell.py: Shell.plot"])
p("A plot shows the component asked for",
  "The plot of a component shows the values and positions that the direct call of uvw, strain or stress with the same arguments gives, shifted by the plot offset, with the smallest and largest value as default limits of the scale.",
  "every panel, Ritz vector, documented component, positions, grid, limits, offsets, NLgeom and prior state",
  "no plot test compares the data handed to the drawing with the fields",
  ["panels/plot_shell.py: plot_shell"])
p("A deformed plot moves points by the scaled displacement",
  "With deform_u the point at (x, y) is drawn at (x, y) + deform_u_sf (u, v).",
  "every panel, Ritz vector, component, scale factor, positions and offsets",
  "the sign is visible only with a non-zero u",
  ["panels/plot_shell.py: plot_shell"])
p("The scale of an assembly plot covers the group",
  "The limits computed by MultiDomain.plot are the smallest and largest values of the component over all panels of the group at the positions asked for.",
  "every assembly, group, Ritz vector, documented component, grid, positions and user limits",
  "needs all groups and positions",
  ["panels/multidomain/multidomain.py: MultiDomain.plot"])
p("Forcing an orthotropic laminate removes exactly the shear couplings",
  "With force_orthotropic_laminate every calculation uses a laminate matrix in which all couplings of extension and bending with shear and twist are zero and every other entry is that of the stacking sequence; without it the matrix is that of the stacking sequence, also when the flag was set before. The shear and twist resultants then come from gxy and kxy only.",
  "every panel, laminate, flag, history, Ritz vector and set of positions",
  "needs every laminate with every entry non-zero; the tests use balanced laminates",
  ["panels/shell.py: Shell._get_lam_ABD, Shell._rebuild, Shell.stress"])
p("Fields are evaluated at the points asked for",
  "uvw, strain and stress return as mesh the positions given, in the shape given, and refuse positions of different shapes. Without positions the mesh has gridx by gridy equally spaced points, row by row, from corner to corner of the panel.",
  "every panel, Ritz vector, grid, positions and number of threads",
  "needs every grid and shape; rectangular panels and grids with gridx = gridy hide swapped sides",
  ["panels/shell.py: Shell._default_field, Shell.uvw, Shell.strain, Shell.stress"])
p("The aerodynamic matrix of the T-stiffened flutter driver is the work of the pressure on the skin",
  "In tstiff2d_1stiff_flutter, for every displacement vector c of the assembly, c'.kA.c equals the work of the piston-theory pressure, caused by the deflection of the nine skin panels, in this deflection.",
  "Every well-sized T-stiffened panel, number of terms, flow direction, density, speed and Mach number above 1, and every displacement vector.",
  "The matrix is a sum over nine panels of integrals of products of shape functions; a test sees one panel, one flow and the eigenvalues only.",
  ["panels/multidomain/tstiff2d_1stiff_flutter.py: tstiff2d_1stiff_flutter (rho_air, Mach, air_speed, flow, skin, kA)", "panels/shell.py: Shell.calc_kA"])
p("A T-stiffened panel is supported along its outer edges and nowhere else",
  "In the assembly of the T-stiffened panel drivers, whatever the displacement vector, v and w of the skin and the flange vanish at x = 0 and all three components at x = a (u at x = 0 too in the analyses that do not load this edge), and v and w of the skin vanish at y = 0 and y = b; every other component along every other panel edge moves for some displacement vector, so that the panels are held together only by their connections and the base only by its bond to the skin.",
  "Every well-sized T-stiffened panel, every number of terms up to the 30 stored (at least 3 for the second half), every displacement vector and every point of the edge, for the exact shape functions and (up to 4e-9 of the sum of the absolute terms) the stored ones.",
  "Sixty flags are set by hand on fifteen panels; a test of an eigenvalue does not see a wrong flag, and rest along an edge is a statement about every displacement.",
  ["panels/multidomain/tstiff2d_1stiff_compression.py: tstiff2d_1stiff_compression (p01 ... p15, x1u ... y2w)", "panels/multidomain/tstiff2d_1stiff_freq.py: tstiff2d_1stiff_freq", "panels/multidomain/tstiff2d_1stiff_flutter.py: tstiff2d_1stiff_flutter"])
p("The ends of a cylinder are held and its long edges are free",
  "In the assembly of create_cylinder_assy or create_cylinder_blade_stiffened u, v and w of every panel and blade vanish at both ends, whatever the displacement vector; in the compression analyses u is released at x = height only; the long edges move in all components.",
  "Every cylinder with two panels or more, every height, radius, blade width, laminate, and number of terms from 3 to 30, every displacement vector and every point of the edge, for the exact and the stored shape functions.",
  "The released edge must be the loaded one of every panel; a test looks at one cylinder and at the eigenvalue only.",
  ["panels/multidomain/cylinder.py: create_cylinder_assy, cylinder_compression_lb_Nxx_cte, cylinder_compression_lb_Nxx_from_static, cylinder_spla", "panels/multidomain/cylinder_blade_stiffened.py: create_cylinder_blade_stiffened, cylinder_blade_stiffened_compression_lb_Nxx_from_static"])
p("Vibration frequencies and buckling loads are real",
  "For the stiffness and mass matrices of a panel or of an assembly with connections, every complex number l and complex vector z with kC z = l kM z and kinetic energy z*.kM.z not zero has l real and l >= 0, so that the frequency is a real number. For kC z + l kG z = 0 and strain energy z*.kC.z not zero, l is real and not zero.",
  "Every panel without constant prestress whose laminate stores energy, every assembly of such panels with usable connections, every state in which the mass or geometric stiffness is calculated, every complex eigenpair.",
  "A solver returns some eigenvalues of one matrix; that no complex or negative one exists needs symmetry and signs of all forms for all vectors.",
  ["panels/shell.py: Shell.calc_kC, Shell.calc_kM, Shell.calc_kG", "panels/multidomain/multidomain.py: MultiDomain.calc_kC, MultiDomain.calc_kM, MultiDomain.calc_kG"])
p("A panel resists everything but the motions without strain that its supports allow",
  "A plate has six rigid motions - three translations, an in-plane rotation and two slopes; a cylindrical panel of radius r has six motions that the strains of shallow shells do not see, which tend to those as r grows: u = u0 - th y + al y^2/(2 r), v = v0 + th x - (w0 y + al x y + be y^2/2)/r, w = w0 + al x + be y. Such a motion is allowed by the supports when every component held along an edge vanishes there, and every slope held across it. With at least four terms each way, every allowed motion is free: there is a Ritz vector whose displacements are that motion and whose product with the stiffness matrix of calc_kC is zero. Nothing else is free: a panel of a positive definite laminate that displaces without strain energy moves in one of these ways, as its supports allow. Hence a panel, flat or curved, has one response to a load if and only if its supports leave it no such motion: then any two solutions of K c = f displace every point by the same amount, and otherwise every load that has a solution has two that differ.",
  "every panel without constant prestress, every number of terms (at least 4 for the existence of the motions, up to 30 tabulated functions for the converse), every position of the block, every radius, every such motion, every Ritz vector and load vector; tables that hold the exact integrals",
  "Both directions range over a continuum of motions and over every number of terms; that nothing else is free is a statement about the whole null space of the matrix.",
  ["panels/shell.py: Shell.calc_kC", "panels/models/clpt_bardell_field.pyx", "panels/models/plate_clpt_donnell_bardell.pyx: fk0", "bardell.integral_ff and the other integral tables"])
p("More terms or fewer supports never raise a frequency or a buckling load; a stiffer laminate never lowers one",
  "Take two panels of the same geometry, laminate, mass and load of which the second has as many terms or more in each direction and no edge flag set to 0 that the first does not also set to 0. Every state of the first is a state of the second with the same displacements at every point and the same strain energy, work of the membrane load and kinetic energy in the matrices of calc_kC, calc_kG and calc_kM. Hence a lower bound of the squared frequencies of the second bounds those of the first, and a load factor under which the second is stable leaves the first stable: refining a model approaches its frequencies and buckling loads from above. Between two panels that differ only in the laminate, the stiffer one (difference of the laminate matrices positive semidefinite) keeps every lower bound and every stable load of the other.",
  "every pair of panels as described (plates and cylindrical panels), every number of terms, every combination of edge flags, every position and size of the matrices, every load and every bound; tables that hold the exact integrals",
  "Monotonic convergence is a statement about all refinements and all supports at once; a test compares two of them and depends on an eigenvalue solver.",
  ["panels/shell.py: Shell.calc_kC, calc_kG, calc_kM", "panels/models/plate_clpt_donnell_bardell.pyx: fk0, fkG0, fkM", "panels/models/cylshell_clpt_donnell_bardell.pyx: fk0, fkG0, fkM"])
p("The returned T-stiffened assembly keeps its load",
  "When the compression analysis of the T-stiffened panel solves a static case and returns the assembly, the load vector of the returned assembly is the load which the static case was solved with (up to the sign which the driver gives it).",
  "for every panel geometry, laminate, defect, number of terms, membrane loads and store of objects",
  "the load functions are closures over a variable of the driver, so what they return depends on what the driver does after the static case; a test of the driver looks at the eigenvalues and never asks the returned assembly for its load again",
  ["panels/multidomain/tstiff2d_1stiff_compression.py:tstiff2d_1stiff_compression", "panels/multidomain/multidomain.py:MultiDomain.calc_fext", "panels/shell.py:Shell.calc_fext", "panels/shell.py:Shell.add_distr_load_fixed_x"])
p("An assembly resists everything but motions that strain no panel and keep the connections closed",
  "For an assembly of panels, flat or curved, whose laminates resist every strain, the matrix of calc_kC (with the penalties of all connections) gives a displacement vector zero energy if and only if each panel moves without strain (a plate, as a rigid body) and no connection opens. Hence, when the supports of every panel leave it no such motion or it is connected, directly or through other panels, to one of which this is true, through lines that lie on the panels or over a face, two solutions of K c = f displace every point of every panel by the same amount: the static response is unique.",
  "every number of panels and connections of all six kinds, every graph of connections, every size and radius, number of terms up to 30, laminate and support; tables that hold the exact integrals",
  "It speaks of all displacement vectors and all graphs of connections; a test solves one assembly and cannot tell a missing penalty from a soft one.",
  ["panels/multidomain/multidomain.py: MultiDomain.calc_kC, get_kC_conn", "panels/multidomain/connections/*.pyx", "panels/shell.py: Shell.calc_kC"])
p("A panel pulled at points takes the state of least energy and never goes past the prescribed displacement",
  "Let K come from calc_kC, the matrices of the points from fkCpd (finalized), and f from calc_fext after the corresponding calls of add_point_pd. A solution c of (K + matrices) c = f minimises the strain energy plus the energy of the springs stretched from the prescribed displacements, among all vectors. With one component prescribed at one point, the displacement that uvw reports there lies between zero and the prescribed value, and the distance left is at most the strain energy of any state that reaches the value, divided by the constant and the value. The constants of calc_ku_kv_kw_point_pd are A11, A22, A11 of the laminate; those of the line variants times the length of the line are the same; they are available once a matrix was calculated, and AttributeError is raised before.",
  "every panel (plate or cylindrical), every number of terms, every list of points with nonnegative constants, every load level, every solution and every competing vector; tables that hold the exact integrals",
  "A minimum over all vectors and a bound for all constants cannot be tested; the test in the repository compares one displacement within a tolerance.",
  ["panels/multidomain/connections/penalties.py: calc_ku_kv_kw_point_pd, calc_ku_kv_kw_line_pd_xcte, calc_ku_kv_kw_line_pd_ycte", "panels/multidomain/connections/kCpd.pyx: fkCpd", "panels/shell.py: Shell.add_point_pd, calc_fext, calc_kC"])
p("A T-stiffened panel has no motion without strain and a unique response",
  "For the assembly that the T-stiffened panel drivers build, with a flat or curved skin and laminates that resist every strain, calc_kC succeeds, a displacement vector to which its matrix gives no energy displaces no point of any of the fifteen panels, and two solutions of K c = f displace every point of every panel by the same amount. This holds with and without the debonding defect, and whether or not the edge x = 0 is free to move for the load.",
  "every well-sized geometry, laminates and numbers of terms up to 30 per panel, defect from 0 to less than the whole length, every displacement vector and load vector; tables that hold the exact integrals",
  "The sixty flags and twenty-one connections hold the panel together for every displacement vector or leave some part loose; a test solves a few cases, and a direct solver returns numbers for a singular matrix as well.",
  ["panels/multidomain/tstiff2d_1stiff_compression.py: tstiff2d_1stiff_compression", "panels/multidomain/tstiff2d_1stiff_freq.py: tstiff2d_1stiff_freq", "panels/multidomain/tstiff2d_1stiff_flutter.py: tstiff2d_1stiff_flutter", "panels/multidomain/multidomain.py: MultiDomain.calc_kC"])
p("A ready-made cylinder has no motion without strain and a unique response",
  "For the cylinders that create_cylinder_assy and create_cylinder_blade_stiffened make, with laminates that resist every strain, and for the same cylinders as the drivers change them - one end released axially, prestress set, line loads or a point load added - calc_kC succeeds, a displacement vector to which its matrix gives no energy displaces no point of any panel or blade, and two solutions of K c = f displace every point by the same amount.",
  "every height, radius, number of panels, laminate of the skin and of each blade, width of each blade, number of terms up to 30, load values, displacement vector and load vector; tables that hold the exact integrals",
  "Whether the released end leaves the cylinder free to move concerns every displacement vector and every number of panels; a test solves a few cylinders, and a direct solver returns numbers for a singular matrix as well.",
  ["panels/multidomain/cylinder.py: create_cylinder_assy, cylinder_compression_lb_Nxx_cte, cylinder_compression_lb_Nxx_from_static, cylinder_spla", "panels/multidomain/cylinder_blade_stiffened.py: create_cylinder_blade_stiffened, cylinder_blade_stiffened_compression_lb_Nxx_from_static", "panels/multidomain/multidomain.py: MultiDomain.calc_kC"])
p("A supported panel has one response to every load, of least energy, reciprocal, and monotone in terms, supports and stiffness",
  "Let K come from calc_kC and f from calc_fext for the loads added with the load methods. If the supports leave the panel no motion without strain and the laminate is positive definite, K c = f has a solution, although K may be singular, and every solution makes uvw report the same displacements everywhere. Two loads do the same work in the response to each other: the displacement at one point under a force at another is the displacement at the other under the same force at the first (Betti, Maxwell). The response minimises the strain energy minus the work of the loads among all vectors, and the work of the loads equals twice the strain energy and is not negative. With more terms or fewer supports the work of forces at points, and so the displacement under a single force, does not decrease; with a stiffer laminate the work of any loads does not increase.",
  "every plate or cylindrical panel, every number of terms up to 30 per direction, every placement in the global vector, every list of point and line loads and every load level, every solution and every competing vector; tables that hold the exact integrals",
  "Existence of a solution of a singular system, a minimum over all vectors and inequalities between all pairs of models cannot be settled by trying some; the tests compare displacements of a few panels with stored numbers.",
  ["panels/shell.py: Shell.calc_kC, calc_fext, uvw, add_point_load, add_distr_load_fixed_x, add_distr_load_fixed_y", "panels/models/plate_clpt_donnell_bardell.pyx: fkC", "panels/models/plate_clpt_donnell_bardell_field.pyx: fg, fuvw", "panels/models/cylshell_clpt_donnell_bardell.pyx: fkC"])
p("A supported assembly has one response to every load, of least energy and reciprocal across panels, and connections never soften it",
  "Let K come from MultiDomain.calc_kC and f from MultiDomain.calc_fext after any calls of the load methods of the panels. If every panel is held or connected, directly or through others, to one that is, K c = f has a solution, and every solution makes uvw report the same displacements of every panel. Loads on any panels do the same work in the response to each other, so a force on one panel moves a point of another as much as the same force there moves the first point. The response minimises the strain energy of panels and connections minus the work of the loads; the work of the loads is not negative. With further connections between the same panels the work of the loads does not increase, nor does the displacement under a single force. The ready-made cylinders, with or without blades, and the T-stiffened panel satisfy the conditions.",
  "every number of panels, flat or curved, every list of connections that is not empty, every list of loads on every panel and every load level, every solution and every competing vector, every list of further connections; tables that hold the exact integrals and at most 30 terms per direction",
  "Existence for a singular system, a minimum over all vectors and inequalities between all pairs of assemblies cannot be settled by trying some of them.",
  ["panels/multidomain/multidomain.py: MultiDomain.calc_kC, calc_fext, get_kC_conn", "panels/shell.py: Shell.calc_fext, uvw, add_point_load", "panels/multidomain/tstiff2d_1stiff_compression.py: tstiff2d_1stiff_compression", "panels/multidomain/cylinder.py: create_cylinder_assy", "panels/multidomain/cylinder_blade_stiffened.py: create_cylinder_blade_stiffened"])
p("An assembly with an empty list of connections is its panels side by side",
  "MultiDomain with an empty list of connections: calc_kC should return the stiffness matrices of the panels along the diagonal and calc_fint their internal forces one after the other, as calc_kG, calc_kM and calc_fext do. Refuted: both raise AttributeError, always, because the number 0 of the empty sum is passed to finalize_symmetric_matrix. What holds: after get_kC_conn(finalize=False) on the empty list both give the expected result; without any list RuntimeError is raised.",
  "every assembly, every stiffness calculation that succeeds for each of its panels, every vector",
  "The failure and the way around it concern every assembly; tests try connected ones.",
  ["panels/multidomain/multidomain.py: MultiDomain.get_kC_conn, calc_kC, calc_fint"])
p("A supported stiffened bay has one response to every load and stiffeners only make it stiffer",
  "StiffPanelBay with panels of which at least one resists every strain, pads that store energy, 1D blade stiffeners whose coupling is within what their axial and torsional stiffness carry, and 2D blade stiffeners whose flanges resist every strain: calc_kC returns a symmetric matrix without negative energy. Displacements without energy are motions of the skin and of each flange without strain in which the root of each flange follows the skin. If the edges of the skin are held so that it has no such motion, nothing moves without energy, K c = f has a solution for every f that does no work in constants that displace nothing, all solutions displace the skin and the flanges by the same amount, responses are reciprocal and of least potential energy. Adding stiffeners (add_bladestiff1d, add_bladestiff2d) never lowers the energy of a displacement and never raises the work of a load in its response.",
  "every bay built by any sequence of additions and calls, any numbers of panels and stiffeners, up to 30 terms in each direction, every vector of constants, every load vector",
  "Definiteness, uniqueness and monotonicity are statements about all displacements, all loads and all additions of stiffeners.",
  ["panels/stiffpanelbay/stiffpanelbay.py: StiffPanelBay.calc_kC, add_bladestiff1d, add_bladestiff2d", "panels/stiffener/bladestiff1d.py: BladeStiff1D.calc_kC", "panels/stiffener/bladestiff2d.py: BladeStiff2D.calc_kC"])
p("Buckling loads and frequencies of stiffened bays are real numbers and modes of different ones are not coupled",
  "StiffPanelBay with sound parts and a held skin (C105): every complex number l with (K + l G) z = 0, K from calc_kC and G from any calc_kG, for constants z that displace the skin or a flange, is real and not zero. If the bay has 2D blade stiffeners only, every l with K z = l M z, M from calc_kM, is real and positive, and it is the ratio of the strain energy to the kinetic energy of the mode. For panels and bays, two modes of vibration or of buckling with different l have no common energy: x.K y = 0 and x.M y = 0 (x.G y = 0).",
  "every bay built by any sequence of additions and calls, any numbers of panels and stiffeners, up to 30 terms in each direction, every complex eigenvalue and vector; every panel, load and offset for the coupling of modes",
  "Solvers of lb and freq assume symmetric, definite pencils; that no complex or negative eigenvalue exists is a statement about all vectors and all bays.",
  ["panels/stiffpanelbay/stiffpanelbay.py: StiffPanelBay.calc_kC, calc_kG, calc_kM", "panels/stiffener/bladestiff2d.py: BladeStiff2D", "panels/shell.py: Shell.calc_kC, calc_kG, calc_kM"])
p("Powers in generated expressions become products and nothing else changes",
  "panels.dev.matrixtools.pow2mult, applied to the text of an expression, returns the same text with every w**d and every pow(w, d), w a name or an integer and d a positive integer, written as (w*w*...*w) with d factors; everything else, also powers of parentheses, stays as it is, whatever the powers have in common. mprint_as_array does the same for w**d.",
  "every text made of any characters, powers and calls of pow in any order and number, with names of any length and exponents of any size",
  "Replacing one power can damage another in which it is contained; whether the order of replacements avoids this depends on all powers of the text.",
  ["panels/dev/matrixtools.py: pow2mult, mprint_as_array"])
p("A held panel has a lowest buckling load, which is the limit of its stability, and a lowest frequency",
  "Take a panel whose laminate resists every strain and whose supports leave it no rigid motion, the matrix K of calc_kC and the matrix G of calc_kG, for uniform membrane forces or for those of a given state. If the load releases energy in some displacement, there is a lowest positive multiple l of the load with a buckling mode (K + l G) z = 0 that displaces the panel; below l every displacement costs energy, at l none releases energy, and above l the mode releases energy. Compression along x, with none or compression along y, is such a load if there are five terms or more in each direction. With the matrix M of calc_kM of a panel that has mass, there is a lowest positive l with K z = l M z; it is the least quotient of strain and kinetic energy over all displacements. More terms or fewer supports never raise these values and a stiffer laminate never lowers them.",
  "every panel of the flat and cylindrical models, 1 to 30 terms in each direction, every laminate and support with the stated properties, every uniform load and every state, every position in the global matrix",
  "That a first eigenvalue exists and separates stable from unstable loads concerns all displacement vectors and all load levels; an eigenvalue solver returns only the numbers that it found.",
  ["panels/shell.py: Shell.calc_kC, Shell.calc_kG, Shell.calc_kM"])
p("The aerodynamic matrix of a stiffened bay is that of its skin in the flow of the bay",
  "For every stiffened bay whose size is known and whose flow is given (direction, air density, speed, speed of sound, Mach number of at least 1), calc_kA returns a matrix; it is skew-symmetric off the diagonal, it is the matrix of the first panel placed in the flow of the bay, and for a flat bay whose first panel covers it and is held across the flow it is the virtual work of the piston-theory pressure of that flow. A parameter beta given to the bay, or a flow assigned after a first call, should be followed; the code does neither.",
  "all bays built with the public methods in any order, all panels, stiffeners, flows, and all virtual displacements and displacements",
  "the flow, geometry and displacement are arbitrary reals, and the effect of a later assignment depends on the history of calls",
  ["panels/stiffpanelbay/stiffpanelbay.py: StiffPanelBay.calc_kA", "panels/shell.py: Shell.calc_kA"])
p("A held stiffened bay has a lowest buckling load, raised by stiffeners, and a lowest frequency",
  "For every stiffened bay of stiff parts on supports that hold the skin, with uniform loads for which some displacement releases work, there is a lowest positive load factor at which the bay buckles: it is stable below that factor and unstable above. With five terms or more in each direction, a skin panel compressed along x and no part pulled or sheared, such a displacement exists. A bay extended by 1D or 2D blade stiffeners that are unloaded or pulled does not buckle earlier. A bay without 1D stiffeners whose parts have no negative mass and with a panel that weighs has a lowest frequency, which is positive.",
  "all bays built with the public methods in any order, all numbers of panels, stiffeners and terms covered by the tables, all laminates, loads and displacements",
  "existence of a lowest eigenvalue and stability below it range over all displacements, and the comparison over all added stiffeners",
  ["panels/stiffpanelbay/stiffpanelbay.py: StiffPanelBay.calc_kC", "panels/stiffpanelbay/stiffpanelbay.py: StiffPanelBay.calc_kG", "panels/stiffpanelbay/stiffpanelbay.py: StiffPanelBay.calc_kM", "panels/stiffener/bladestiff1d.py: BladeStiff1D.calc_kG", "panels/stiffener/bladestiff2d.py: BladeStiff2D.calc_kG"])
p("A held assembly of connected panels has a lowest buckling load and a lowest frequency, and connections lower neither",
  "For every assembly of stiff panels, each of them held or connected to a held one, with uniform loads for which some displacement releases work, there is a lowest positive load factor at which the assembly buckles: it is stable below that factor and unstable above. calc_kC and then calc_kG on the same object succeed and give such matrices whenever no panel is pulled or sheared and one with five terms or more in each direction is compressed along x. With masses that are not negative, one of them positive, the assembly has a lowest frequency, which is positive. The same panels with more connections neither buckle at a lower load nor vibrate at a lower frequency. The driver that compresses a cylinder with constant loads hands the solver matrices with a lowest buckling load.",
  "all assemblies of any number of panels and connections of any kind, all numbers of terms covered by the tables, all sturdy laminates, loads, masses and displacements; all cylinders of two or more panels and all constant compressive loads",
  "existence of a lowest eigenvalue and stability below it range over all displacements, and the comparison over all added connections",
  ["panels/multidomain/multidomain.py: MultiDomain.calc_kC", "panels/multidomain/multidomain.py: MultiDomain.calc_kG", "panels/multidomain/multidomain.py: MultiDomain.calc_kM", "panels/multidomain/multidomain.py: MultiDomain.get_kC_conn", "panels/multidomain/cylinder.py: create_cylinder_assy", "panels/multidomain/cylinder.py: cylinder_compression_lb_Nxx_cte"])
p("The analyses of a T-stiffened panel have a lowest buckling load and a lowest frequency, and debonding raises neither",
  "For every T-stiffened panel of positive sizes and sturdy laminates, without the static case and with constant loads of which none pulls and one compresses a part with five terms or more in each direction, the compression analysis hands the buckling solver a stiffness and a geometric matrix that have a lowest positive buckling load. With a positive density and ply thickness and five terms or more in each direction of the skin, the frequency analysis hands its solver matrices that have a lowest, positive frequency. A panel with defect_a = 0 is divided as one with defect_a = 0.33, and the bonded one buckles at a load, and vibrates at a frequency, not lower than the debonded one.",
  "all sizes, laminates, radii, numbers of terms covered by the tables, densities and constant loads of the T-stiffened panel",
  "existence of a lowest eigenvalue ranges over all displacements of fifteen panels, and the comparison over all sizes, laminates and loads",
  ["panels/multidomain/tstiff2d_1stiff_compression.py: tstiff2d_1stiff_compression", "panels/multidomain/tstiff2d_1stiff_freq.py: tstiff2d_1stiff_freq", "panels/multidomain/multidomain.py: MultiDomain.calc_kC", "panels/multidomain/multidomain.py: MultiDomain.calc_kG", "panels/multidomain/multidomain.py: MultiDomain.calc_kM"])

with open(os.path.join(os.path.dirname(__file__), '..', 'properties.jsonl'), 'w') as fo:
    for d in P:
        fo.write(json.dumps(d) + "\n")
print(len(P))
