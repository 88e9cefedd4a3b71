{"id": "C01", "title": "Every node owns its own block of six equations", "statement": "After any sequence of API calls in which no node name is added twice, the nodes returned by get_node_names are numbered 0,1,2,... in insertion order, so the six-DOF blocks of two different nodes never overlap and never leave the range of the global system. (Claimed for every history; it fails as soon as a node name is re-added, which the API accepts and answers True.)", "quantifier": "all finite histories of API calls (any interleaving of node, beam, load, case, assemble and solve calls), all node names and coordinates", "why_tests_cant": "a test fixes one insertion order and a handful of names; the numbering depends on the whole history, in particular on whether a name was ever reused", "anchors": ["hyperstatic/core/__init__.py: Api.add_node", "hyperstatic/core/fe_model/model.py: Model.add_node, Model.get_node_hid"]}
{"id": "C02", "title": "A True answer means the value can be read back", "statement": "Whenever an API setter (add_node, set_nodal_mass, set_loadcase_nodal_restraint, set_nodal_load, add_beam, add_simple_beam, add_loadpattern, add_static_case, add_case_pattern, set_nodal_restraint) answers True, the corresponding getter returns exactly the value just given, whatever was stored before.", "quantifier": "all states reachable by any call history, all names and values", "why_tests_cant": "tests read back values in one freshly built model; overwriting, ordering and interaction with earlier state are unbounded", "anchors": ["hyperstatic/core/__init__.py: Api setters and getters", "hyperstatic/core/fe_model/model.py", "hyperstatic/core/fe_model/load/__init__.py", "hyperstatic/core/fe_model/load/pattern.py"]}
{"id": "C03", "title": "A failed call changes nothing", "statement": "Whenever a mutating API call answers False, every later answer of every query, assembly and solve is the same as if the call had not been made.", "quantifier": "all states, all mutating calls and arguments, all later queries", "why_tests_cant": "the set of failing calls and of states they can fail in is infinite", "anchors": ["hyperstatic/core/__init__.py: every try/except wrapper", "hyperstatic/core/fe_model/model.py"]}
{"id": "C04", "title": "Setting one object never disturbs another", "statement": "A call that names node, beam, pattern or case X leaves every query about a different name Y unchanged, and leaves every query about other kinds of objects unchanged.", "quantifier": "all states, all pairs of distinct names, all setter calls", "why_tests_cant": "requires checking all pairs of names and all object kinds in all states", "anchors": ["hyperstatic/core/__init__.py", "hyperstatic/core/fe_model/model.py", "hyperstatic/core/fe_model/load/__init__.py", "hyperstatic/core/fe_model/load/pattern.py"]}
{"id": "C05", "title": "Restraining an undefined node is reported", "statement": "set_nodal_restraint answers True only if the restraint is recorded, i.e. only if the node exists.", "quantifier": "all states and node names", "why_tests_cant": "the property quantifies over every undefined name in every state", "anchors": ["hyperstatic/core/__init__.py: Api.set_nodal_restraint", "hyperstatic/core/fe_model/model.py: Model.set_nodal_restraint"]}
{"id": "C06", "title": "Name listings are exact", "statement": "get_node_names / get_beam_names list exactly the names for which an add call answered True, each once, in order of first addition.", "quantifier": "all histories of API calls", "why_tests_cant": "depends on the complete history including repeated additions", "anchors": ["hyperstatic/core/__init__.py: get_node_names, get_beam_names", "hyperstatic/core/fe_model/model.py"]}
{"id": "C07", "title": "Existing beams are immune to later redefinitions", "statement": "Once a beam has been added, re-adding its end nodes, its section or its material (under the same names) changes neither its reported end coordinates nor its element stiffness and mass.", "quantifier": "all histories after the creation of a beam that do not re-add the beam itself", "why_tests_cant": "any later sequence of edits has to be considered", "anchors": ["hyperstatic/core/fe_model/model.py: Model.add_beam, Model.add_node, Model.add_isotropic_material, Model.add_beam_section_*"]}
{"id": "C08", "title": "A case sees later edits of its load patterns", "statement": "After a pattern has been put into a case, loads written to the pattern by name are loads of the case: the case's nodal load equals the sum over its patterns of factor times the pattern's current load. (Claimed for every history; it fails once the pattern name is re-created.)", "quantifier": "all histories of pattern and case edits, all nodes", "why_tests_cant": "object identity versus name identity only diverges on particular histories", "anchors": ["hyperstatic/core/__init__.py: add_loadpattern, add_case_pattern, set_nodal_load", "hyperstatic/core/fe_model/load/__init__.py: LoadCase.add_pattern, LoadCase.get_nodal_f"]}
{"id": "C09", "title": "Solving uses the model as of the last assemble", "statement": "Between one assemble and the next, edits of the model, patterns and cases do not influence solve_static or any displacement result; the outcome is a function of the state at the last successful assemble.", "quantifier": "all histories of edits between assemble and solve", "why_tests_cant": "a frame property over arbitrary edit sequences", "anchors": ["hyperstatic/core/__init__.py: assemble, solve_static", "hyperstatic/core/fe_model/assembly.py: Assembly.save", "hyperstatic/core/fe_solver/__init__.py: Solver"]}
{"id": "C10", "title": "Results of different cases never overwrite each other", "statement": "Solving case A leaves the stored displacements of every other case B untouched, and no save/assemble/solve call destroys the artefacts of another kind (assembly, saved interface, displacement results).", "quantifier": "all pairs of case names and file names, all histories", "why_tests_cant": "file-name collisions can only be excluded for all names by proof", "anchors": ["hyperstatic/core/__init__.py: save, assemble, solve_static", "hyperstatic/core/fe_solver/static.py: np.save(casename+'.d')", "hyperstatic/core/fe_model/assembly.py: Assembly.save"]}
{"id": "C11", "title": "Releases set through the API take effect", "statement": "set_beam_release on an existing beam answers True and the beam's stiffness is condensed accordingly.", "quantifier": "all states, all existing beams, all release masks", "why_tests_cant": "needs every state and mask", "anchors": ["hyperstatic/core/__init__.py: set_beam_release", "hyperstatic/core/fe_model/model.py: set_beam_releases"]}
{"id": "C12", "title": "Pipe sections have pipe properties", "statement": "add_beam_section_pipe(name,material,d,t) stores the area, inertias and torsion constant of a tube of outer diameter d and wall t.", "quantifier": "all d, t, names and states", "why_tests_cant": "formula equality over all real dimensions", "anchors": ["hyperstatic/core/__init__.py: add_beam_section_pipe", "hyperstatic/core/fe_model/section/beam_section.py: PipeSection, RectangleSection"]}
{"id": "C13", "title": "add_shell connects the given nodes with the given section", "statement": "add_shell(name,n1,n2,n3,n4,section) with four defined nodes and a defined shell section answers True and creates a quadrilateral on exactly those nodes with that section.", "quantifier": "all states and names", "why_tests_cant": "quantifies over all states and names", "anchors": ["hyperstatic/core/__init__.py: add_shell", "hyperstatic/core/fe_model/model.py: add_shell"]}
{"id": "C14", "title": "Every documented result call can succeed", "statement": "solve_modal, result_get_nodal_reaction, result_get_beam_end_force, get_shell_location and clear_workspace succeed in some state with suitable arguments.", "quantifier": "all states and arguments (the negation is a universal statement)", "why_tests_cant": "that a call can never succeed is a statement about all states", "anchors": ["hyperstatic/core/__init__.py", "hyperstatic/core/fe_solver/dynamic.py: solve_eigen", "hyperstatic/core/fe_post/beam.py: resolve_beam_end_force", "hyperstatic/core/fe_post/node.py"]}
{"id": "C15", "title": "Reported DOF count is the number of free equations", "statement": "The DOF count of an assembly equals six times the number of nodes minus the number of globally restrained DOFs, and equals the number of equation numbers that are not restrained.", "quantifier": "all models with distinct node numbers and all restraint tables", "why_tests_cant": "arbitrary restraint tables", "anchors": ["hyperstatic/core/fe_model/assembly.py: Assembly.__init__, Assembly.DOF"]}
{"id": "C16", "title": "Elimination keeps exactly the free-free submatrix", "statement": "Removing restrained DOFs from the assembled sparse matrix yields the matrix whose entry (a,b) is the original entry at the a-th and b-th free DOF, for any order of the list of restrained DOFs, including duplicate sparse entries.", "quantifier": "all sparse matrices (any multiset of triplets), all duplicate-free restraint lists in any order", "why_tests_cant": "index compaction loops must be right for every set of removed indices and every size", "anchors": ["hyperstatic/core/fe_model/assembly.py: Assembly.__drop_matrix_dof"]}
{"id": "C17", "title": "Matrix and load vector are reduced consistently", "statement": "The load vector is reduced to the same free DOFs in the same order as the matrix, so row a of the reduced system is the equation of the a-th free DOF.", "quantifier": "all systems and restraint lists", "why_tests_cant": "same as C16", "anchors": ["hyperstatic/core/fe_model/assembly.py: __drop_matrix_dof, __drop_vector_dof, assemble_boundary"]}
{"id": "C18", "title": "Expanding the solution inverts the elimination", "statement": "The stored displacement vector has zero at every restrained DOF and the a-th solved value at the a-th free DOF; reducing it again gives back the solved vector, and the expansion consumes exactly all solved values.", "quantifier": "all restraint lists (any order) and all solution vectors", "why_tests_cant": "arbitrary sizes and index sets", "anchors": ["hyperstatic/core/fe_solver/static.py: solve_linear lines 118-132"]}
{"id": "C19", "title": "Static solution satisfies equilibrium at every free DOF", "statement": "If solve_static answers True and the linear solver returned an exact solution, the stored displacement vector d vanishes at every DOF restrained in the case (or globally, if the case has no restraints of its own) and (K d) equals the assembled load at every unrestrained DOF.", "quantifier": "all models, cases, restraint tables and loads", "why_tests_cant": "end-to-end over all models; the code paths for elimination and expansion recompute the restraint list independently", "anchors": ["hyperstatic/core/fe_solver/static.py: solve_linear", "hyperstatic/core/fe_model/assembly.py: assemble_K, assemble_f, assemble_boundary, restraintDOF"]}
{"id": "C20", "title": "Case restraints replace global restraints as a whole", "statement": "If a load case carries any restraint entry, the global restraints are ignored for that case; otherwise the global restraints apply; elimination and expansion follow the same rule.", "quantifier": "all pairs of global and case restraint tables", "why_tests_cant": "all tables, including entries whose six flags are all False", "anchors": ["hyperstatic/core/fe_model/assembly.py: assemble_boundary, restraintDOF", "hyperstatic/core/fe_solver/static.py: lines 118-120"]}
{"id": "C21", "title": "The assembled stiffness is the sum of element energies", "statement": "For every displacement vector x, x'Kx equals the sum over all beams of the beam energy of its end displacements in local axes, and (Kx) at a DOF is the sum of the contributions of the elements attached to that node only.", "quantifier": "all models, all displacement vectors", "why_tests_cant": "scatter indexing must be right for every connectivity", "anchors": ["hyperstatic/core/fe_model/assembly.py: assemble_K", "hyperstatic/core/fe_model/element/line/__init__.py: transform_matrix"]}
{"id": "C22", "title": "The assembled stiffness matrix is symmetric", "statement": "K[a,b]=K[b,a] for every pair of DOFs in every model; consequently symmetrising before the solve does not alter the system.", "quantifier": "all models and DOF pairs", "why_tests_cant": "all connectivities and orientations", "anchors": ["hyperstatic/core/fe_model/assembly.py: assemble_K", "hyperstatic/core/fe_solver/static.py: A=(K_+K_.T)/2", "hyperstatic/core/fe_model/element/line/beam.py: integrate_K"]}
{"id": "C23", "title": "The assembled stiffness matrix is positive semidefinite", "statement": "For a model made of beams with non-negative E, A, I2, I3, J (and mu>-1) x'Kx >= 0 for every x.", "quantifier": "all beam models with admissible properties, all vectors", "why_tests_cant": "all vectors of all sizes", "anchors": ["hyperstatic/core/fe_model/assembly.py: assemble_K", "hyperstatic/core/fe_model/element/line/beam.py: integrate_K", "hyperstatic/core/fe_model/element/line/simple_beam.py: integrate_K"]}
{"id": "C24", "title": "Rigid motions cost nothing and nodal forces balance", "statement": "A rigid translation plus infinitesimal rotation of all nodes gives K d = 0, and for any d the nodal forces K d have zero resultant force and zero resultant moment.", "quantifier": "all beam models (any orientation in space), all translations, rotations, displacement vectors", "why_tests_cant": "orientation-dependent transformation over a continuum of directions", "anchors": ["hyperstatic/core/fe_model/assembly.py: assemble_K", "hyperstatic/common/csys.py: Cartesian", "hyperstatic/core/fe_model/element/line/__init__.py"]}
{"id": "C25", "title": "Insertion order of beams is irrelevant", "statement": "Adding the same beams in a different order produces the same stiffness matrix and load vector.", "quantifier": "all permutations of all beam lists", "why_tests_cant": "factorially many orders", "anchors": ["hyperstatic/core/fe_model/assembly.py: assemble_K, assemble_f"]}
{"id": "C26", "title": "Loads superpose linearly", "statement": "The load vector of a case is linear in the pattern factors and additive over patterns; scaling every factor scales the load vector.", "quantifier": "all cases, patterns, factors, models", "why_tests_cant": "linear laws over all reals", "anchors": ["hyperstatic/core/fe_model/load/__init__.py: get_nodal_f, get_beam_f", "hyperstatic/core/fe_model/assembly.py: assemble_f"]}
{"id": "C27", "title": "No load is lost or invented", "statement": "The resultant force of the assembled load vector in each global direction equals the sum of the applied nodal forces plus the resultants of the distributed and concentrated member loads, times the pattern factors.", "quantifier": "all models and cases with admissible beams", "why_tests_cant": "sum over arbitrary models and orientations", "anchors": ["hyperstatic/core/fe_model/assembly.py: assemble_f", "hyperstatic/core/fe_model/load/pattern.py: get_beam_f"]}
{"id": "C28", "title": "Distributed member loads are work-equivalent", "statement": "For a linearly varying member load the twelve equivalent end actions do the same virtual work as the load itself on every deflection of the beam (linear axial/torsional, cubic bending).", "quantifier": "all lengths l>0, all load intensities at both ends, all end displacements", "why_tests_cant": "an integral identity over all reals", "anchors": ["hyperstatic/core/fe_model/load/pattern.py: get_beam_f lines 58-102"]}
{"id": "C29", "title": "Concentrated member loads are work-equivalent", "statement": "For a concentrated force or moment at relative position r the twelve equivalent end actions do the same virtual work as the load on every deflection of the beam; in particular resultant force and moment are preserved.", "quantifier": "all l>0, all r, all load components", "why_tests_cant": "identity over all reals", "anchors": ["hyperstatic/core/fe_model/load/pattern.py: get_beam_f lines 121-139"]}
{"id": "C30", "title": "Member loads can be read back", "statement": "get_beam_distributed and get_beam_concentrated return the values given by set_beam_load_dist and set_beam_load_conc for the same beam.", "quantifier": "all patterns, beams and values", "why_tests_cant": "all states", "anchors": ["hyperstatic/core/fe_model/load/pattern.py: get_beam_distributed, get_beam_concentrated"]}
{"id": "C31", "title": "The nodal load table of a case agrees with the per-node query", "statement": "For every node in the table returned by the load case's get_nodal_f_dict the entry equals get_nodal_f of that node.", "quantifier": "all cases, patterns, nodes", "why_tests_cant": "all combinations of patterns", "anchors": ["hyperstatic/core/fe_model/load/__init__.py: get_nodal_f_dict, get_nodal_f"]}
{"id": "C32", "title": "Time-history load rows agree with the per-step load", "statement": "Row t of get_nodal_f_time_history equals get_nodal_f at step t, for all steps of the case's curves (which must have equal lengths; unequal lengths are rejected whenever a pattern loads the node).", "quantifier": "all curves, patterns, factors, nodes, steps", "why_tests_cant": "all curve lengths", "anchors": ["hyperstatic/core/fe_model/load/__init__.py: get_nodal_f_time_history, get_nodal_f"]}
{"id": "C33", "title": "Local axes are orthonormal and right-handed", "statement": "Every coordinate system accepted from three points has orthonormal right-handed axes, its x axis points from the origin to the second point and the third point lies in the x-y plane on the positive y side; otherwise the construction is rejected.", "quantifier": "all triples of points in space", "why_tests_cant": "continuum of geometries", "anchors": ["hyperstatic/common/csys.py: Cartesian.__init__"]}
{"id": "C34", "title": "Rotations keep axes orthonormal and compose", "statement": "Rotating a coordinate system about its own or about global axes keeps the axes orthonormal and right-handed, keeps the rotation axis fixed, and rotating by a then b equals rotating by a+b.", "quantifier": "all coordinate systems and angles", "why_tests_cant": "continuum of angles", "anchors": ["hyperstatic/common/csys.py: rotate_about_*"]}
{"id": "C35", "title": "Degenerate beams are rejected, proper beams accepted", "statement": "add_beam/add_simple_beam answer False and change nothing when the end points coincide, and answer True whenever the end points differ by at least the tolerance.", "quantifier": "all pairs of points", "why_tests_cant": "boundary behaviour around the tolerance in every direction", "anchors": ["hyperstatic/core/fe_model/element/line/__init__.py: Line.__init__", "hyperstatic/common/csys.py: Cartesian.__init__", "hyperstatic/common/tolerance.py"]}
{"id": "C36", "title": "Beam stiffness is the exact Euler-Bernoulli solution", "statement": "For every axial/torsional linear and bending cubic displacement field, the stiffness matrix times its end displacements equals the end forces derived from the field (EA u', GJ theta', EI w''' and EI w'').", "quantifier": "all fields, all l>0, all section constants", "why_tests_cant": "identity over all reals", "anchors": ["hyperstatic/core/fe_model/element/line/beam.py: integrate_K", "hyperstatic/core/fe_model/element/line/simple_beam.py: integrate_K"]}
{"id": "C37", "title": "Element stiffness is symmetric, semidefinite, with exactly the rigid motions as kernel", "statement": "The beam stiffness matrix is symmetric, and for positive EA, GJ, EI2, EI3 and l its energy is non-negative and zero exactly on the six-parameter family of rigid motions.", "quantifier": "all positive properties, all vectors", "why_tests_cant": "all vectors", "anchors": ["hyperstatic/core/fe_model/element/line/beam.py: integrate_K"]}
{"id": "C38", "title": "A beam is the same drawn in either direction", "statement": "Swapping start and end node of a beam leaves the global stiffness contribution unchanged.", "quantifier": "all beams in any orientation", "why_tests_cant": "continuum of orientations; the local axes differ", "anchors": ["hyperstatic/core/fe_model/element/line/__init__.py", "hyperstatic/core/fe_model/assembly.py: assemble_K", "hyperstatic/core/fe_model/element/line/beam.py: integrate_K"]}
{"id": "C39", "title": "A released end force is zero", "statement": "After static condensation for a set of releases, the condensed stiffness has zero rows and columns at every released DOF (no force is transmitted) and remains symmetric and semidefinite.", "quantifier": "all release masks, all stiffness matrices with non-zero pivots", "why_tests_cant": "2^12 masks times a continuum of stiffnesses", "anchors": ["hyperstatic/core/fe_model/element/line/beam.py: static_condensate, static_condensate_f"]}
{"id": "C40", "title": "Beam mass is conserved", "statement": "The assembled mass matrix of a beam represents the total mass rho*A*l for every rigid translation, is symmetric and non-negative; the global mass matrix for a rigid translation yields the sum of all beam and nodal masses.", "quantifier": "all beams and models", "why_tests_cant": "all models", "anchors": ["hyperstatic/core/fe_model/element/line/beam.py: integrate_M", "hyperstatic/core/fe_model/assembly.py: assemble_M", "hyperstatic/core/fe_model/node.py: integrate_M"]}
{"id": "C41", "title": "Deformation results agree with the nodal results at the beam ends", "statement": "result_get_beam_deformation at relative location 0 and 1 equals the displacement of the start and end node expressed in the beam's local axes.", "quantifier": "all beams, displacements, node numberings", "why_tests_cant": "depends on node numbering and orientation", "anchors": ["hyperstatic/core/fe_post/beam.py: resolve_beam_deformation", "hyperstatic/core/fe_model/element/line/beam.py: interpolate, interpolate1"]}
{"id": "C42", "title": "Nodal displacement queries read the node's own block", "statement": "result_get_nodal_displacement(node,case) returns exactly the six stored displacements of that node, and result_get_all_nodal_displacement agrees with it for every node.", "quantifier": "all models, cases, nodes", "why_tests_cant": "all models", "anchors": ["hyperstatic/core/fe_post/node.py: resolve_nodal_displacement", "hyperstatic/core/__init__.py: result_get_all_nodal_displacement"]}
{"id": "C43", "title": "Section constants satisfy the composition laws", "statement": "Area and inertias of box and I sections equal outer rectangle minus cut-outs (equivalently sum of rectangular parts with the parallel-axis rule), a pipe of wall d/2 is a solid circle, polar = sum of inertias, section modulus = inertia / half depth; all are positive for admissible dimensions.", "quantifier": "all admissible dimensions", "why_tests_cant": "formula identities over reals", "anchors": ["hyperstatic/core/fe_model/section/beam_section.py: BoxSection, PipeSection, ISection, CircleSection, RectangleSection"]}
{"id": "C44", "title": "Elastic constants are mutually consistent", "statement": "G and the Lame constant reported for a material satisfy the isotropic identities with E and mu.", "quantifier": "all E, mu", "why_tests_cant": "identity over reals", "anchors": ["hyperstatic/core/fe_model/material/isotropy.py: G, lamda"]}
{"id": "C45", "title": "Shell areas are the geometric areas", "statement": "The area attributed to a triangular or quadrilateral shell equals its geometric area.", "quantifier": "all triangles and quadrilaterals in space", "why_tests_cant": "continuum of geometries", "anchors": ["hyperstatic/core/fe_model/element/tria/__init__.py: Tria.__init__", "hyperstatic/core/fe_model/element/quad/__init__.py: Quad.__init__"]}
{"id": "C46", "title": "Any non-degenerate shell is accepted", "statement": "Every non-degenerate triangle or planar convex quadrilateral is accepted whatever its orientation and vertex order, and gets orthonormal axes normal to its plane.", "quantifier": "all non-degenerate triangles / quads", "why_tests_cant": "continuum of geometries; special cases near the vertical", "anchors": ["hyperstatic/core/fe_model/element/tria/__init__.py", "hyperstatic/core/fe_model/element/quad/__init__.py", "hyperstatic/common/csys.py: create_by_normal"]}
{"id": "C47", "title": "Shell element matrices are placed on the right DOFs", "statement": "Membrane and plate sub-matrices end up at the in-plane and bending DOFs of the right node pair, nothing is overwritten, symmetry and semidefiniteness of the parts carry over to the shell and through assembly.", "quantifier": "all sub-matrices and connectivities", "why_tests_cant": "all matrices", "anchors": ["hyperstatic/core/fe_model/element/tria/DKT.py: integrate_K", "hyperstatic/core/fe_model/element/quad/DKGQ.py: integrate_K", "hyperstatic/core/fe_model/assembly.py: assemble_K 133-178"]}
{"id": "C48", "title": "Triangular membrane passes the constant-strain and rigid-body test", "statement": "The triangular membrane stiffness gives zero force for in-plane rigid motions (translations and rotation).", "quantifier": "all triangles", "why_tests_cant": "continuum of geometries", "anchors": ["hyperstatic/core/fe_model/meta/membranes/T9/__init__.py", "hyperstatic/core/fe_model/element/tria/DKT.py"]}
{"id": "C49", "title": "Modal frequencies are consistent with the eigenvalues", "statement": "resolve_modal_frequency reports f and T with 2*pi*f = sqrt(eigenvalue) for the eigenvalues stored by the modal solver.", "quantifier": "all eigenvalues", "why_tests_cant": "all positive reals", "anchors": ["hyperstatic/core/fe_post/structure.py: resolve_modal_frequency", "hyperstatic/core/fe_solver/dynamic.py: solve_eigen"]}
{"id": "C50", "title": "Rayleigh damping hits the target ratios", "statement": "The damping coefficients used in direct time integration give exactly the target damping ratios at the two target frequencies.", "quantifier": "all pairs of distinct positive frequencies and ratios", "why_tests_cant": "identity over reals", "anchors": ["hyperstatic/core/fe_solver/dynamic.py: solve_direct_time_integration lines 199-207"]}
{"id": "C51", "title": "Direct time integration is the central difference scheme", "statement": "The sequence stored by direct time integration satisfies M(u[n+1]-2u[n]+u[n-1])/dt^2 + C(u[n+1]-u[n-1])/(2dt) + K u[n] = f[n] at every step n.", "quantifier": "all M, C, K, dt, load histories and step counts", "why_tests_cant": "unbounded number of steps", "anchors": ["hyperstatic/core/fe_solver/dynamic.py: solve_direct_time_integration lines 216-236"]}
{"id": "C52", "title": "Newmark steps satisfy motion and kinematics", "statement": "Each step of the Newmark routine satisfies the equation of motion at the new time and the Newmark displacement and velocity relations.", "quantifier": "all beta, gamma, dt, system constants and states", "why_tests_cant": "identity over reals", "anchors": ["hyperstatic/core/fe_solver/dynamic.py: solve_Newmark_beta"]}
{"id": "C53", "title": "CQC coefficients are a correlation", "statement": "The CQC coefficient is symmetric in the two modes, is 1 for equal periods and lies in (0,1] for positive damping; with all off-diagonal coefficients zero CQC equals SRSS; the sum under the root is never negative for damping ratios between 0 and 1, whatever the signs of the modal responses.", "quantifier": "all periods and damping ratios", "why_tests_cant": "identities over reals", "anchors": ["hyperstatic/core/fe_solver/dynamic.py: ResponseSpectrumSolver.solve lines 138-152"]}
{"id": "C54", "title": "The design spectrum is continuous, positive and consistent", "statement": "The code-defined seismic design spectrum is continuous at its breakpoints, and the two implementations in the repository agree.", "quantifier": "all periods, damping ratios, characteristic periods and amplitudes", "why_tests_cant": "continuum of arguments", "anchors": ["hyperstatic/app/design/GB/seismic/spectrum.py", "hyperstatic/app/seismic/wave2spec.py"]}
{"id": "C55", "title": "Unit conversion is consistent and invertible", "statement": "Coordinates, loads and displacements entered in one unit system and read in the same unit system are returned unchanged; entering the same physical quantity in any unit system stores the same value.", "quantifier": "all unit systems and values", "why_tests_cant": "all reals and unit pairs", "anchors": ["hyperstatic/app/general/model.py: scale", "hyperstatic/app/general/object/joint.py", "hyperstatic/app/general/object/frame.py", "hyperstatic/app/general/result/result.py"]}
{"id": "C56", "title": "Both ends of a drawn frame are placed in the same unit system", "statement": "Adding a frame by two end points in a given unit system creates both end joints at the physical position given.", "quantifier": "all points and unit systems", "why_tests_cant": "all reals", "anchors": ["hyperstatic/app/general/object/frame.py: add_frame"]}
{"id": "C57", "title": "Second-order solve expands its solution correctly", "statement": "The displacement vector stored by the second-order static solver has zeros exactly at the restrained DOFs and the solved values at the free DOFs in order.", "quantifier": "all restraint tables in any insertion order", "why_tests_cant": "depends on insertion order of restraints", "anchors": ["hyperstatic/core/fe_solver/static.py: solve_2nd_order lines 161-167"]}
{"id": "C58", "title": "A saved interface is restored exactly", "statement": "Api.load of a file written by Api.save returns an interface whose every query answers as the original did at the time of saving, whatever happened to the original in between.", "quantifier": "all states and histories between save and load", "why_tests_cant": "all histories", "anchors": ["hyperstatic/core/__init__.py: save, load"]}
{"id": "C59", "title": "Results stay attached to their model", "statement": "result_get_nodal_displacement(node,case) returns the displacement computed for that node by the last solve of that case, also after further edits and re-assembly.", "quantifier": "all histories of edits, assemble, solve and queries", "why_tests_cant": "requires histories that re-assemble without re-solving", "anchors": ["hyperstatic/core/__init__.py: result_get_nodal_displacement", "hyperstatic/core/fe_post/node.py"]}
{"id": "C60", "title": "Beam and simple beam agree", "statement": "A simple beam given the constants of a section yields the same stiffness and mass matrices as a beam with that section.", "quantifier": "all constants", "why_tests_cant": "formula identity", "anchors": ["hyperstatic/core/fe_model/element/line/beam.py", "hyperstatic/core/fe_model/element/line/simple_beam.py"]}
{"id": "C61", "title": "Nodes merged on request never coincide", "statement": "If every node is added with the duplicate check, no two nodes of the model lie within the tolerance of each other in all three coordinates, and the answer names a node at the requested place.", "quantifier": "all sequences of add_node calls with check_dup=True, all coordinates", "why_tests_cant": "Any finite list of points leaves out the tolerance boundary and long chains of near neighbours.", "anchors": ["hyperstatic/core/fe_model/model.py: add_node", "hyperstatic/core/fe_model/node.py: __eq__"]}
{"id": "C62", "title": "A proper case is always solved", "statement": "After an assembly, solve_static of an existing case answers True whenever the linear solver returns a vector, provided the case's restraint table names existing nodes only and is empty or contains a True, and no member has Poisson ratio -1.", "quantifier": "all call histories, all cases, all solvers", "why_tests_cant": "The absence of an internal exception over all models cannot be sampled.", "anchors": ["hyperstatic/core/fe_solver/static.py: solve_linear", "hyperstatic/core/__init__.py: solve_static"]}
{"id": "C63", "title": "Wilson steps satisfy motion and kinematics", "statement": "Each step of the Wilson-theta routine satisfies the displacement and velocity relations over the step, and the state extrapolated over theta*dt satisfies the equation of motion with the extrapolated load.", "quantifier": "all beta, gamma, theta, dt, system matrices and states", "why_tests_cant": "identity over reals and all system sizes", "anchors": ["hyperstatic/core/fe_solver/dynamic.py: solve_Wilson_theta"]}
{"id": "C64", "title": "The response spectrum is read at the period of the mode", "statement": "The period at which the response spectrum solver reads the spectrum is 2*pi/sqrt(eigenvalue) for every mode.", "quantifier": "all positive eigenvalues", "why_tests_cant": "all positive reals", "anchors": ["hyperstatic/core/fe_solver/dynamic.py: ResponseSpectrumSolver.solve lines 109-111"]}
{"id": "C65", "title": "The damping ratio of a time-history case is used", "statement": "The damping ratio given with a direct integration case is the damping ratio of the damping matrix at one of its two design frequencies.", "quantifier": "all cases and ratios", "why_tests_cant": "the absence of any influence over all inputs cannot be sampled", "anchors": ["hyperstatic/core/fe_solver/dynamic.py: solve_direct_time_integration lines 177-207", "hyperstatic/core/fe_model/load/loadcase.py: use_direct_time_integration"]}
{"id": "C66", "title": "Newmark states carry their time", "statement": "The time answered with the n-th state of the Newmark routine is n steps, for a list of times with uniform step starting at 0.", "quantifier": "all uniform time lists and step counts", "why_tests_cant": "unbounded number of steps", "anchors": ["hyperstatic/core/fe_solver/dynamic.py: solve_Newmark_beta lines 314-335"]}
{"id": "C67", "title": "Beams and shells are numbered in the order they are listed", "statement": "In every state the number of a beam (of a shell) is its position in the listing of beams (of shells), so that different ones have different numbers.", "quantifier": "all sequences of calls", "why_tests_cant": "all sequences of calls, of any length", "anchors": ["hyperstatic/core/fe_model/model.py: add_beam, add_simple_beam, add_shell, get_beam_hid, get_shell_hid"]}
{"id": "C68", "title": "A failing call of the drawing model changes nothing", "statement": "A call of the drawing model that reports failure (answers False or raises) leaves the model as it was.", "quantifier": "all reachable states and calls", "why_tests_cant": "every call in every reachable state", "anchors": ["hyperstatic/app/general/object/joint.py", "hyperstatic/app/general/object/frame.py", "hyperstatic/app/general/model.py"]}
{"id": "C69", "title": "Frames drawn as a batch end at the points given", "statement": "Frames drawn as a batch end at joints within the tolerance of the points given, and the frames drawn before keep their joints.", "quantifier": "all drawings and batches", "why_tests_cant": "all drawings and all batches of points", "anchors": ["hyperstatic/app/general/object/frame.py: add_frame_batch", "hyperstatic/app/general/object/joint.py: merge_joints"]}
{"id": "C70", "title": "Joints are found by their coordinates", "statement": "The look-up of joints by coordinates answers exactly the joints within the tolerance of them, in every unit.", "quantifier": "all drawings, coordinates and units", "why_tests_cant": "all drawings and real coordinates", "anchors": ["hyperstatic/app/general/object/joint.py: get_joint_name_by_coor"]}
{"id": "C71", "title": "Stored section constants are those of the profile", "statement": "A section added to the drawing model is stored with the area, second moments and torsional constant of its profile, in SI units.", "quantifier": "all shapes, sizes and units", "why_tests_cant": "all real sizes", "anchors": ["hyperstatic/app/general/property/frame_section.py: add_frame_section", "hyperstatic/app/general/model.py: create"]}
{"id": "C72", "title": "The ends of a frame are answered start first", "statement": "The end query of a frame answers its start joint and then its end joint.", "quantifier": "all drawings and frames", "why_tests_cant": "all drawings", "anchors": ["hyperstatic/app/general/object/frame.py: get_frame_end_names"]}
{"id": "C73", "title": "Every frame refers to existing joints and an existing section", "statement": "In every state of the drawing model each frame has two different joints of the model and a section of the model.", "quantifier": "all sequences of calls", "why_tests_cant": "all sequences of calls, of any length", "anchors": ["hyperstatic/app/general/object/frame.py", "hyperstatic/app/general/object/joint.py: merge_joints"]}
{"id": "C74", "title": "The membrane of the quadrilateral passes the patch test", "statement": "The GQ12 membrane gives the exact work of every constant strain state and no force under rigid motions.", "quantifier": "all convex quadrilaterals, materials, thicknesses, quadratures exact for linear functions", "why_tests_cant": "all real corner coordinates and all quadratures", "anchors": ["hyperstatic/core/fe_model/meta/membranes/GQ12/__init__.py", "hyperstatic/core/fe_model/element/quad/DKGQ.py: integrate_K"]}
{"id": "C75", "title": "The plate of the triangle is the discrete Kirchhoff triangle", "statement": "The DKT strain matrix is the derivative of the discrete Kirchhoff slope field; constant curvature is met exactly and rigid deflections cause no force.", "quantifier": "all triangles, corner values, points, materials", "why_tests_cant": "all real corner coordinates and corner values", "anchors": ["hyperstatic/core/fe_model/meta/plates/metaDKT/__init__.py", "hyperstatic/core/fe_model/element/tria/DKT.py: integrate_K"]}
{"id": "C76", "title": "The plate of the quadrilateral is the discrete Kirchhoff quadrilateral", "statement": "The DKQ plate interpolates the discrete Kirchhoff slopes; constant curvature is met exactly and rigid deflections cause no force.", "quantifier": "all convex quadrilaterals, corner values, materials", "why_tests_cant": "all real corner coordinates and corner values", "anchors": ["hyperstatic/core/fe_model/meta/plates/metaDKQ/__init__.py", "hyperstatic/core/fe_model/element/quad/DKGQ.py: integrate_K"]}
{"id": "C77", "title": "The mappings to the reference shapes are regular and keep the area", "statement": "The Jacobians of the quadrilateral kernels are positive for convex corners and add up to the area; the corners in element axes keep convexity and area.", "quantifier": "all convex plane quadrilaterals, all triangles, all points", "why_tests_cant": "all real corner coordinates", "anchors": ["hyperstatic/core/fe_model/meta/membranes/GQ12/__init__.py", "hyperstatic/core/fe_model/meta/plates/metaDKQ/__init__.py", "hyperstatic/core/fe_model/element/quad/__init__.py", "hyperstatic/core/fe_model/element/tria/__init__.py"]}
{"id": "C78", "title": "The model holds exactly what the calls said", "statement": "After any sequence of calls the model holds, for every name, the last accepted definition of a node (position, mass), restraint, material, section, beam or shell; load brings back what had been told at the save, and the assembled copy holds what had been told at the last assembly.", "quantifier": "all call sequences, names, values, kernels and solvers", "why_tests_cant": "unboundedly many interleavings of definitions, saves, loads and assemblies", "anchors": ["hyperstatic/core/__init__.py: Api.add_node", "hyperstatic/core/fe_model/model.py: Model.add_node, Model.get_node_hid"]}
{"id": "C79", "title": "The loads and cases are those the calls said", "statement": "After any sequence of calls every pattern name stands for the pattern created last under it, every pattern holds for each node and beam the last load given to it through that name, and every case has the kind, the patterns with factors and the restraints it was given; a case keeps the pattern object it was given when the name is created again; saving and loading restore all of it; the assembled copy holds what had been told at the last successful assembly; and for a case that loads only nodes the entry of the assembled load vector at each node equation is the sum of factor times load told.", "quantifier": "all call histories, all names, all real loads and factors, all externals", "why_tests_cant": "Histories are unbounded, and patterns are shared objects: a test of one setter does not see re-created names, reloaded files or a later overwrite.", "anchors": ["hyperstatic/core/__init__.py:526-755", "hyperstatic/core/fe_model/load/pattern.py:5-26", "hyperstatic/core/fe_model/load/__init__.py:7-36", "hyperstatic/core/fe_model/assembly.py:220-258"]}
{"id": "C80", "title": "Points of a drawing are merged into nodes within the tolerance", "statement": "In the Grasshopper component every restraint, load and beam end of a drawing is given a node of the model that is the same point or closer than the tolerance, and no two nodes of the model are closer than the tolerance.", "quantifier": "all drawings (any number of restraints, loads and beams, any real coordinates), all tolerances", "why_tests_cant": "Which node a point is merged with depends on the order of all earlier points; drawings are unbounded and the coordinates real.", "anchors": ["hyperstatic/app/scripts/grasshopper/run/assemble.py:69-75", "hyperstatic/app/scripts/grasshopper/run/assemble.py:88-114"]}
{"id": "C81", "title": "Nodes and beams of a drawing keep distinct names", "statement": "The nodes and the beams that the Grasshopper component writes have pairwise different names, so that no entry of the drawing is overwritten by another.", "quantifier": "all drawings and all tolerances", "why_tests_cant": "Clashes between generated and given names depend on the number of nodes placed before.", "anchors": ["hyperstatic/app/scripts/grasshopper/run/assemble.py:96-114", "hyperstatic/app/scripts/grasshopper/element/node.py:24", "hyperstatic/app/scripts/grasshopper/element/beam.py:25"]}
{"id": "C82", "title": "The generated script builds the drawing in metres and newtons", "statement": "After the script that the Grasshopper component writes has run, every beam of the drawing is in the model between nodes where its ends were drawn and with the drawn section and material, and the restraints and loads drawn at a point are those of a node standing there, all converted to metres and newtons up to the six decimals written.", "quantifier": "all drawings, both length units, both force units, all tolerances, all kernels and solvers of the interface", "why_tests_cant": "The component runs inside Rhino, and the result composes an unbounded drawing with an unbounded sequence of interface calls.", "anchors": ["hyperstatic/app/scripts/grasshopper/run/assemble.py:30-46", "hyperstatic/app/scripts/grasshopper/run/assemble.py:77-230", "hyperstatic/app/scripts/grasshopper/material/material_isotropic.py:20-25"]}
{"id": "C83", "title": "Records are scaled to the peak asked for", "statement": "Scaling an earthquake record multiplies it by one factor, and the largest absolute acceleration of the result is the peak asked for.", "quantifier": "all records and all peaks", "why_tests_cant": "The claim ranges over all real records; a test sees only records whose peak happens to be positive.", "anchors": ["hyperstatic/app/seismic/wave2spec.py:38-40", "hyperstatic/app/seismic/wave2spec.py:53", "hyperstatic/app/seismic/wave2spec.py:97"]}
{"id": "C84", "title": "The Duhamel spectrum is the response of the damped oscillator", "statement": "For every period the displacement ordinate is the largest absolute value of the sum of the answers of the oscillator of that period and damping ratio to the impulses of the record, and the velocity and acceleration ordinates follow from it.", "quantifier": "all records with at least two samples, all steps, all damping ratios below one", "why_tests_cant": "The oscillator is a continuous object; tests compare with another program at a few periods and tolerances hide a wrong frequency.", "anchors": ["hyperstatic/app/seismic/wave2spec.py:42-83"]}
{"id": "C85", "title": "The Fourier spectrum is the steady response of the damped oscillator", "statement": "For every record that is a sum of harmonics of the transform length, each ordinate is the largest value of the sum of the steady motions of the oscillator of that period and damping ratio.", "quantifier": "all sums of harmonics of any number, amplitude and phase, all steps, ratios and periods", "why_tests_cant": "A trigonometric identity over all records, frequencies and ratios; a shift of the resonance by a factor sqrt(1-xi) is within test tolerances.", "anchors": ["hyperstatic/app/seismic/wave2spec.py:86-126"]}
{"id": "C86", "title": "The records selected are those that fit the target spectrum best", "statement": "The records chosen are as many as asked for, in rising order of the squared difference between their spectrum and the target at the same periods within the range, no record left out fits better, and the curves drawn are the spectra of the records chosen.", "quantifier": "all lists of records, all targets, ranges and numbers", "why_tests_cant": "Which records win depends on all of them; off-by-one comparisons change errors only slightly.", "anchors": ["hyperstatic/app/seismic/wave_selection.py:8-47"]}
{"id": "C87", "title": "Envelopes are continuous and between 0 and 1", "statement": "The envelopes of artificial records lie between 0 and 1 and are continuous, and the power spectrum from which amplitudes are taken is positive.", "quantifier": "all times and frequencies", "why_tests_cant": "Continuity and positivity are statements about all reals.", "anchors": ["hyperstatic/app/seismic/wave2spec.py:148-160", "hyperstatic/app/seismic/spec2wave.py:25-41"]}
{"id": "C88", "title": "The thick plate kernel bends and shears as a plate", "statement": "The thick plate kernel takes every side as a beam with shear, gives the shear and bending strain of the fields so interpolated, meets constant curvature exactly for quadrilaterals of every convex shape and every thickness, causes no force under rigid deflections, tends to the discrete Kirchhoff plate when thin, and its matrix is symmetric and does no negative work.", "quantifier": "all convex quadrilaterals, thicknesses, elastic constants, nodal values and quadrature rules that are exact for linear functions", "why_tests_cant": "The statement ranges over all shapes and values of a symbolically generated kernel; a wrong sign in one of 96 entries shows for some shapes only.", "anchors": ["hyperstatic/core/fe_model/meta/plates/TMQ/__init__.py:17-121", "hyperstatic/core/fe_model/meta/plates/TMQ/__init__.py:124-268"]}
{"id": "C89", "title": "The thick shell element moves rigidly without force and meets constant strain", "statement": "The shell element built on the thick plate causes no force under rigid motions, meets constant membrane strain and constant curvature exactly, and is symmetric and does no negative work.", "quantifier": "all plane convex quadrilaterals in space, all sections and fields", "why_tests_cant": "Whether two modules number and sign their rotations alike is invisible in either of them; a solution with a tilt penalty still looks like a plate.", "anchors": ["hyperstatic/core/fe_model/element/quad/TMGQ.py:15-75"]}
{"id": "C90", "title": "The symbolic beam stiffness is the strain energy of the member and the matrix of the element", "statement": "The stiffness matrix derived by the symbolic beam script is the strain energy of stretching, twisting and bending integrated over the member for all end displacements, and is the matrix the beam element uses.", "quantifier": "all members, section constants and displacement fields", "why_tests_cant": "Two modules derive the same matrix in different ways; equality must hold for all constants, and equal inertias, the common test section, hide an exchange.", "anchors": ["hyperstatic/core/fe_model/meta/beams/beam_eular/__init__.py:6-102", "hyperstatic/core/fe_model/element/line/beam.py"]}
{"id": "C91", "title": "The symbolic beam mass is the kinetic energy of the member", "statement": "The mass matrix derived by the symbolic beam script is the kinetic energy of the moving member integrated over its length; moving along with both ends it has the mass rho A l.", "quantifier": "all members, section constants and velocity fields", "why_tests_cant": "A wrong power of the length shows only in the dependence on it; at one length any factor can be taken for a unit.", "anchors": ["hyperstatic/core/fe_model/meta/beams/beam_eular/__init__.py:16-18", "hyperstatic/core/fe_model/meta/beams/beam_eular/__init__.py:37-40", "hyperstatic/core/fe_model/meta/beams/beam_eular/__init__.py:51-54", "hyperstatic/core/fe_model/meta/beams/beam_eular/__init__.py:68-70", "hyperstatic/core/fe_model/meta/beams/beam_eular/__init__.py:104-132"]}
{"id": "C92", "title": "Interpolation functions reproduce the fields they are made for", "statement": "The Hermite functions take end values and slopes to the cubic having them, in one and two dimensions, and the Lagrange functions reproduce linear and bilinear fields.", "quantifier": "all polynomials of the degree, all lengths and points", "why_tests_cant": "Identities of polynomials in several variables.", "anchors": ["hyperstatic/core/fe_model/meta/interpolate/Hermite.py:7-41", "hyperstatic/core/fe_model/meta/interpolate/Lagrange.py:6-21"]}
{"id": "C93", "title": "Stress and strain obey Hooke's law", "statement": "The elasticity tensor of the isotropic script takes strains to stresses such that a pulled bar stretches by s/E and thins by nu s/E and sheared material shears by 2(1+nu)t/E, work is done by every strain, and the constants of the material class are the two of that law.", "quantifier": "all strains, all E and all Poisson ratios between -1 and 1/2", "why_tests_cant": "Equivalence of two linear laws over all constants and strains.", "anchors": ["hyperstatic/core/fe_model/meta/isotropy.py:7-29", "hyperstatic/core/fe_model/material/isotropy.py:33-54"]}
{"id": "C94", "title": "Drawing an area adds it to the model", "statement": "An area drawn between three or four points with a section of the model is added to the model, and its joints are those at the points.", "quantifier": "all points, sections and models", "why_tests_cant": "Each path fails in another statement; only looking at all of them shows that none succeeds.", "anchors": ["hyperstatic/app/general/object/area.py:15-168"]}
{"id": "C95", "title": "Importing a drawing adds what it shows, or nothing", "statement": "Each line of a dxf drawing on the layers asked for becomes one frame between the joints at its ends, in the unit of the model, and lines that meet share a joint; an import answered by False leaves the model as it was.", "quantifier": "all drawings, layers, options and models", "why_tests_cant": "Drawings and models are unbounded; shared joints depend on the order of all joints, and the failing branch comes after a commit.", "anchors": ["hyperstatic/app/general/io/dxf.py:13-61", "hyperstatic/app/general/object/frame.py:74-125"]}
{"id": "C96", "title": "Exporting and importing a drawing gives the members back", "statement": "A model written as dxf and read into an empty model has the same members at the same places and in the same directions.", "quantifier": "all models, tolerances and pairs of units", "why_tests_cant": "The two functions meet only through a file; direction depends on random names and the unit on the state of two models.", "anchors": ["hyperstatic/app/general/io/dxf.py:13-90", "hyperstatic/app/general/object/frame.py:317-335"]}
{"id": "C97", "title": "The viewer shows the model that was saved", "statement": "A viewer opened on the directory and name of a saved model shows every node, beam and shell at the place that the interface gives for it, and one cone for each restrained freedom, sized by the extent of the model.", "quantifier": "all models that calls of the interface can make, all directories and names", "why_tests_cant": "Models are unbounded, and the picture joins four listings of the interface whose order and completeness matter; samples do not have re-added nodes, triangles or relative directories.", "anchors": ["hyperstatic/app/viz/viz_core/__init__.py:22-155", "hyperstatic/core/__init__.py:45-75"]}
{"id": "C98", "title": "The deformed picture is the model moved by the displacements", "statement": "Whatever buttons are pressed, the viewer shows the model with every node moved by its displacement times the scale, or undeformed if the deformation was taken back, coloured by the component asked for, with nodes at the places of the drawing, and the buttons say what pressing them does.", "quantifier": "all models, results, scales and sequences of presses", "why_tests_cant": "Sequences of presses are unbounded and the faults need particular orders.", "anchors": ["hyperstatic/app/viz/viz_core/result_deformation.py:10-181"]}
{"id": "C99", "title": "Load arrows show the nodal loads", "statement": "Each nodal load is shown by an arrow that ends at the node and points along the force with a length in proportion to it, the longest a fifth of half the extent of the model; every load is shown.", "quantifier": "all models and loads", "why_tests_cant": "Proportion and the longest arrow depend on all loads at once.", "anchors": ["hyperstatic/app/viz/viz_core/model_load.py:100-140"]}
{"id": "C100", "title": "Buttons switch what they name", "statement": "A press of the button of nodes, beams or shells switches their visibility and nothing else, and each button says what is seen.", "quantifier": "all sequences of presses", "why_tests_cant": "Sequences of presses are unbounded.", "anchors": ["hyperstatic/app/viz/viz_core/model_basic.py:20-69", "hyperstatic/app/viz/viz_core/model_load.py:21-76"]}
{"id": "C101", "title": "Response spectrum analysis combines the shares of the modes", "statement": "For every response spectrum case the solver answers, at every equation, the CQC or SRSS combination over the modes kept of participation factor times mode times spectral ordinate at the period of the mode over its squared frequency; the shares of all modes add up to the movement of the ground, and scaling a mode changes nothing.", "quantifier": "all settings, mass matrices, sets of modes, spectra and mode counts", "why_tests_cant": "The sums run over any number of equations and modes, and completeness needs all of them; the class tests only construct the case and never solve it.", "anchors": ["hyperstatic/core/fe_solver/dynamic.py:78-155", "hyperstatic/core/fe_model/load/loadcase.py:7-181"]}
{"id": "C102", "title": "Every table of a SAP2000 file is read as written", "statement": "For every SAP2000 text file made of tables of rows of key=value entries, quoted or not, continued over lines or not, the reader returns for each table name the list of its rows, each with exactly its keys and values, and the import succeeds.", "quantifier": "all lists of tables, rows, keys and values, all choices of quoting and line breaks", "why_tests_cant": "Texts have unbounded length; quoting, continuation and table boundaries interact, and the project has no s2k file among its tests.", "anchors": ["hyperstatic/app/general/io/s2k.py:12-78"]}
{"id": "C103", "title": "Load cases are ordered after the cases they start from", "statement": "When each load case starts from zero or from another case without a ring, the depth of a case is the length of its chain, the list sorted by depth has each case after the one it starts from, the chain of a chosen case leads from zero to it, and the placing routine returns all cases in such an order; with a ring or a missing case no order is produced.", "quantifier": "all lists of load cases, all recursion limits, all chosen cases", "why_tests_cant": "Chains may have any length and sharing; termination for every acyclic list and only for those cannot be tested.", "anchors": ["hyperstatic/app/general/io/s2k.py:263-280", "hyperstatic/app/general/io/s2k.py:348-452"]}
{"id": "C104", "title": "A drawing is handed to the element model as drawn", "statement": "For every drawing, meshing gives one node per joint at its place, one beam per frame in the direction it was drawn with the constants of its section and material, and one support per restraint; applying a load case puts on every node the loads of that case and its share of the weight of the beams, and nothing of other cases.", "quantifier": "all histories of the drawing, all load cases, all lists of cases run", "why_tests_cant": "Drawings and runs are unbounded, and the application cannot be run against the current element model.", "anchors": ["hyperstatic/app/general/model.py:219-421"]}
{"id": "C105", "title": "Project files keep what was saved and only that", "statement": "A project opened, edited, saved and closed shows the same drawing when it is opened again; without saving, it is as before; no other file changes; a missing project is created on opening and a created project is new.", "quantifier": "all sequences of calls, all paths, all drawings", "why_tests_cant": "The claim is about every interleaving of create, open, edit, save and close over any number of files.", "anchors": ["hyperstatic/app/general/db.py:15-72"]}
{"id": "C106", "title": "A static answer is the equilibrium of the structure", "statement": "For every model and solved static case, the stored displacements respect the supports, balance the loads at every free equation, minimise the potential energy among all permitted displacements and, if the supports hold the structure still, are the only ones that do; they superpose, obey reciprocity, and the loads do twice the strain energy of work.", "quantifier": "all histories of calls, all cases, all exact solvers, all competing displacements", "why_tests_cant": "The claim ranges over all structures and, for each, over a continuum of competing displacements.", "anchors": ["hyperstatic/core/fe_model/assembly.py: assemble_K, assemble_f, assemble_boundary", "hyperstatic/core/fe_solver/static.py: solve_linear"]}
{"id": "C107", "title": "A structure tied to a clamped node is held still", "statement": "If every node is connected through beams with positive constants to a node held in all six directions, then no displacement that the supports permit is free of strain.", "quantifier": "all histories of calls, all connected structures", "why_tests_cant": "Connected structures are unbounded in number and shape.", "anchors": ["hyperstatic/core/fe_model/assembly.py: assemble_K, assemble_f, assemble_boundary"]}
{"id": "C108", "title": "Reactions balance the loads", "statement": "For every solved static case, the forces that hold the stored displacements minus the loads vanish at all free equations, and as forces at the supports they balance the loads in force and in moment.", "quantifier": "all histories of calls, all solved cases", "why_tests_cant": "The claim is about every structure and load, and about sums over all its nodes.", "anchors": ["hyperstatic/core/fe_model/assembly.py: assemble_K, assemble_f, assemble_boundary", "hyperstatic/core/fe_solver/static.py: solve_linear"]}
{"id": "C109", "title": "More support or stiffness never gives more compliance", "statement": "Adding supports, adding members or making members stiffer never increases the work that the same loads do on their displacements.", "quantifier": "all pairs of histories of calls where the second tells at least the members and supports of the first", "why_tests_cant": "It compares two arbitrary models; tests compare a few.", "anchors": ["hyperstatic/core/fe_model/assembly.py: assemble_K, assemble_f, assemble_boundary", "hyperstatic/core/fe_solver/static.py: solve_linear"]}
{"id": "C110", "title": "Answers depend only on what was told, not on the order", "statement": "Two histories of calls that tell the same structure and the same load case, by name, give the same displacements at every node after solving.", "quantifier": "all pairs of histories of calls", "why_tests_cant": "The number of orders is factorial and histories are unbounded.", "anchors": ["hyperstatic/core/__init__.py: Api", "hyperstatic/core/fe_model/assembly.py: assemble_K, assemble_f, assemble_boundary"]}
{"id": "C111", "title": "Answers move with the structure", "statement": "A structure shifted, or turned about the vertical together with its loads, gives the shifted, or turned, displacements.", "quantifier": "all pairs of histories of calls, all shifts and angles", "why_tests_cant": "It ranges over a continuum of motions and all structures.", "anchors": ["hyperstatic/core/fe_model/element/line/__init__.py: Line.__init__", "hyperstatic/common/csys.py"]}
{"id": "C112", "title": "The duplicate check keeps nodes and beams apart and names them", "statement": "If every call on the model class asks for the duplicate check, no two nodes are ever at one place and no two beams join the same two places in either direction; the number given back is that of what is there, and the name told can be used from then on.", "quantifier": "all sequences of building calls on the model class", "why_tests_cant": "Sequences of calls are unbounded and duplicates depend on every earlier call.", "anchors": ["hyperstatic/core/fe_model/model.py: Model.add_node, add_beam, add_simple_beam, set_node_restraint"]}
{"id": "C113", "title": "Structures that are held still are always solved, and only those have one answer", "statement": "With a solver that answers every system having exactly one solution, every static case of a structure that its supports hold still is solved; and where a permitted displacement strains nothing, the equilibrium is not unique.", "quantifier": "all histories of calls, all cases, all able solvers", "why_tests_cant": "It asserts that a solution exists for every stable structure, of any size.", "anchors": ["hyperstatic/core/fe_model/assembly.py: assemble_K, assemble_f, assemble_boundary", "hyperstatic/core/fe_solver/static.py: solve_linear"]}
{"id": "C114", "title": "Shell stiffness has no preferred direction in its plane", "statement": "An element of an isotropic material laid in another direction of its plane has the stiffness turned with it: the work of turned corner values on the turned element is that of the values on the element.", "quantifier": "all corner coordinates, all angles, all corner values, all elastic constants", "why_tests_cant": "It is an identity over a continuum of shapes and angles; a test compares a few of them.", "anchors": ["hyperstatic/core/fe_model/meta/membranes/GQ12/__init__.py", "hyperstatic/core/fe_model/meta/plates/metaDKT/__init__.py", "hyperstatic/core/fe_model/meta/plates/metaDKQ/__init__.py", "hyperstatic/core/fe_model/meta/membranes/T9/__init__.py"]}
{"id": "C115", "title": "Cutting a member by a node on it changes nothing elsewhere", "statement": "If a member is replaced by two members of the same section that meet in a new free node on it, and its line and point loads are shared out to the parts, the static displacements at all other nodes stay the same; the new node, if the member carries no load, lies on the deflection curve of the member; and the structure is stable exactly if it was before.", "quantifier": "all structures, all call orders, all positions of the new node, all load cases, all exact solvers; members whose parts are taken for vertical only if the whole is", "why_tests_cant": "It compares two runs on models of different size, for a continuum of positions of the cut; a test has rounding and picks one cut.", "anchors": ["hyperstatic/core/fe_model/element/line/__init__.py: Line.__init__", "hyperstatic/core/fe_model/assembly.py: assemble_K, assemble_f, assemble_boundary", "hyperstatic/core/fe_solver/static.py: solve_linear"]}
{"id": "C116", "title": "Modes of a modal case", "statement": "Every mode stored by a modal case is a displacement of the structure, not zero and with no motion at a restrained direction, in which the elastic forces equal the eigenvalue times the forces of inertia; modes with different eigenvalues are orthogonal with respect to mass and stiffness, so that the energies of a combination add up; and a stable structure without negative masses has positive eigenvalues only, while an eigenvalue is zero only for a motion without strain.", "quantifier": "all structures, all call orders, all numbers of modes, all eigensolvers that return eigenpairs of the matrices handed to them", "why_tests_cant": "It is a statement about the exact eigenpairs of every structure and about every displacement the supports permit; a test has one structure and a tolerance.", "anchors": ["hyperstatic/core/fe_solver/dynamic.py: solve_eigen", "hyperstatic/core/fe_model/assembly.py: assemble_K, assemble_M, assemble_boundary"]}
{"id": "C117", "title": "Stored modes never carry more than there is", "statement": "The masses with which any number of stored modes take part in a translation of the structure add up to at most the mass that is free to move, and so to at most the mass of the structure; and the work of static loads on the part of the static answer carried by these modes is at most their work on the whole answer.", "quantifier": "all stable structures without negative masses, all call orders, all directions, all loads, any number of stored modes with different eigenvalues, all eigensolvers that return eigenpairs", "why_tests_cant": "It bounds sums over the modes of every structure by its mass and its static answer; a test compares a few structures with rounding.", "anchors": ["hyperstatic/core/fe_solver/dynamic.py: solve_eigen", "hyperstatic/core/fe_model/assembly.py: assemble_K, assemble_M, assemble_f, assemble_boundary"]}
{"id": "C118", "title": "Asking for more modes than there are", "statement": "A modal case that asks for more modes than the structure has equations is answered with those that there are.", "quantifier": "all structures, all call orders, all numbers of modes, all eigensolvers that like scipy's eigsh need fewer modes than equations", "why_tests_cant": "It is about every number of modes in every structure; the tests of the project ask for few modes.", "anchors": ["hyperstatic/core/fe_solver/dynamic.py: solve_eigen", "hyperstatic/core/fe_model/assembly.py: DOF"]}
{"id": "C119", "title": "Static answers of frames are those of beam theory", "statement": "The nodal displacements stored by solving a static case of a structure of members are those of the theory of straight bars, without discretisation error: between the displaced nodes every member has deflections that obey EA u'' = -p, EI v'''' = q, GJ t'' = -t under its linearly varying line loads, with the jumps at its concentrated loads, and the forces and moments that the nodes exert on the members meeting there balance the nodal loads in every free direction; no other displacements and no other end actions do so if the structure is stable.", "quantifier": "all structures of members with positive constants, all call orders, all supports, all cases with any nodal, line and concentrated loads in any patterns with any factors, all exact solvers", "why_tests_cant": "It equates the numbers of the program with the solution of differential equations for every structure and load; a test compares a few textbook cases within a tolerance.", "anchors": ["hyperstatic/core/fe_model/element/line/beam.py: Ke", "hyperstatic/core/fe_model/load/pattern.py: get_beam_f", "hyperstatic/core/fe_model/assembly.py: assemble_K, assemble_f, assemble_boundary", "hyperstatic/core/fe_solver/static.py: solve_linear"]}
{"id": "C120", "title": "The compiled shell kernels are the matrices the scripts derive", "statement": "For the membranes T9 and GQ12 and the plates DKT and DKQ, the C function that the program calls at run time, thousands of printed terms long, computes at every point exactly the matrix B^T D B that the script beside it derives: every entry of the result, in row order, equals the entry of the derived matrix, and no division by zero occurs, whenever Poisson's ratio is not 1 or -1 and the element is not degenerate; where it is degenerate a division by zero does occur. Consequently the elements assembled from the compiled kernels have the stiffness of the derived ones.", "quantifier": "all material constants and thicknesses, all triangles with area, all quadrilaterals without re-entrant corner and all points of the reference square, all quadrature schemes inside the square, all entries", "why_tests_cant": "The two are thousands of terms of different form; tests compare them at a few points and within a tolerance, in which a wrong small term does not show.", "anchors": ["hyperstatic/core/fe_model/meta/membranes/T9/wrapped_code_0.c: autofunc", "hyperstatic/core/fe_model/meta/membranes/GQ12/wrapped_code_0.c: autofunc", "hyperstatic/core/fe_model/meta/plates/metaDKT/wrapped_code_0.c: autofunc", "hyperstatic/core/fe_model/meta/plates/metaDKQ/wrapped_code_0.c: autofunc"]}
{"id": "C121", "title": "More support, more stiffness or less mass never lowers a frequency", "statement": "In a modal case of a structure whose supports prevent all motion without strain, every stored eigenvalue is the least quotient of strain energy and kinetic energy among the permitted displacements that have no inertia in common with the modes before it. Therefore the eigenvalue number i of a case with more supports, or of another history of calls that tells the same structure with stiffer members, smaller masses or more supports, is not smaller; and two histories that tell the same structure have the same eigenvalues, whatever the numbering of nodes and whichever exact solver found them.", "quantifier": "all histories of calls, all cases and supports, all numbers of modes, all exact eigensolvers that answer the lowest pairs, all permitted displacements", "why_tests_cant": "It compares infinitely many pairs of structures; a test sees single pairs and accepts eigenvalues that are off or belong to higher modes.", "anchors": ["hyperstatic/core/fe_solver/dynamic.py: solve_eigen", "hyperstatic/core/fe_model/assembly.py: assemble_M"]}
{"id": "C122", "title": "Newmark integration invents no energy", "statement": "A structure without load that moves from any start keeps, step by step, an energy that is at most that of the start plus a term of the order of the square of the step: the step conserves kinetic and strain energy but for the work of loads and damping.", "quantifier": "all symmetric stiffness and mass matrices, all step sizes, all beta, gamma = 1/2, all starts, all numbers of steps, all exact solvers", "why_tests_cant": "Growth by a small factor per step is invisible in short runs; a test compares a few steps with a tolerance.", "anchors": ["hyperstatic/core/fe_solver/dynamic.py: solve_Newmark_beta"]}
{"id": "C123", "title": "Direct integration stays bounded after the load has ceased", "statement": "When the load of a time history has ceased, the motion that is stored does not grow: its energy does not rise from step to step.", "quantifier": "all structures, all modes, all small step sizes, all lengths of the history, all exact solvers", "why_tests_cant": "The claim is about every later step; a test runs a fixed number.", "anchors": ["hyperstatic/core/fe_solver/dynamic.py: solve_direct_time_integration"]}
{"id": "C124", "title": "Damping never drives the structure", "statement": "The damping matrix of a time history takes energy out of every mode of the structure, or leaves it.", "quantifier": "all structures, all modes", "why_tests_cant": "The sign depends on the frequency; tests with slow structures pass.", "anchors": ["hyperstatic/core/fe_solver/dynamic.py: solve_direct_time_integration"]}
{"id": "C125", "title": "Sessions hold the areas drawn in them and lose nothing by drawing", "statement": "Whatever calls a session consists of, after an area between points with a section of the model has been drawn the session holds it, together with everything that was in it before, saved or not.", "quantifier": "all sessions, all corners, all names of sections", "why_tests_cant": "All paths of the call fail, but only by names missing at run time and in a handler that swallows errors; and that no session at all ever holds an area is a claim over all histories.", "anchors": ["hyperstatic/app/general/object/area.py: add_area, add_area_batch"]}
{"id": "C126", "title": "Deleting removes what is named", "statement": "After a deletion the object named is gone and everything else is as before.", "quantifier": "all sessions, all deleting calls, all names", "why_tests_cant": "It quantifies over every state of the database and every name.", "anchors": ["hyperstatic/app/general/object/joint.py: delete_joint", "hyperstatic/app/general/object/frame.py: delete_frame", "hyperstatic/app/general/object/area.py: delete_area", "hyperstatic/app/general/property/frame_section.py: delete_frame_section", "hyperstatic/app/general/property/area_section.py: delete_area_section", "hyperstatic/app/general/load/loadcase.py: delete_loadcase"]}
{"id": "C127", "title": "No section of a material that is not in the model", "statement": "A section is refused if its material is not in the model.", "quantifier": "all sessions, all names, all shapes and sizes", "why_tests_cant": "Every combination of names and state matters; a test has a few.", "anchors": ["hyperstatic/app/general/property/frame_section.py: add_frame_section", "hyperstatic/app/general/property/area_section.py: add_area_section"]}
{"id": "C128", "title": "Masses and stock materials reach the model", "statement": "A mass given to a joint and a stock material asked for are in the model afterwards, and earlier work is kept.", "quantifier": "all sessions, all joints, all masses, all grades", "why_tests_cant": "The calls answer as if they had worked; whether they ever do is a claim over all sessions.", "anchors": ["hyperstatic/app/general/object/joint.py: set_joint_mass", "hyperstatic/app/general/property/material.py: add_material_quick"]}
{"id": "C129", "title": "Listings name every object once", "statement": "The lists of joints, materials, sections of frames and areas and load cases hold the name of every object of the model once, and no other name.", "quantifier": "all sessions of calls, also failed and rolled back ones", "why_tests_cant": "Repeated or lost names arise only from particular histories of calls.", "anchors": ["hyperstatic/app/general/property/material.py: get_material_names", "hyperstatic/app/general/property/frame_section.py: get_frame_section_names", "hyperstatic/app/general/property/area_section.py: get_area_section_names", "hyperstatic/app/general/load/loadcase.py: get_loadcase_names", "hyperstatic/app/general/object/joint.py: get_joint_names"]}
{"id": "C130", "title": "Parts that nothing connects do not affect each other", "statement": "If no beam and no shell joins a node of a part to a node outside it, the static displacements of the part depend on nothing but the nodes, members, supports and loads of the part; a part that the case does not load does not move; and the whole is stable exactly if the parts are.", "quantifier": "all pairs of histories of calls that agree about the part, all parts, all load cases, all exact solvers", "why_tests_cant": "It compares two runs on models of different size and numbering, with anything at all in the rest of the model; a test tries a few pairs.", "anchors": ["hyperstatic/core/fe_model/assembly.py: assemble_K, assemble_f, assemble_boundary", "hyperstatic/core/fe_solver/static.py: solve_linear"]}
{"id": "C131", "title": "The modes of a part that nothing connects", "statement": "If no beam and no shell joins a node of a part to a node outside it, every mode of the structure, restricted to the part, is a free vibration of the part with the same frequency in every structure that contains it, and the lowest frequencies of the structure are no higher than those of the part alone.", "quantifier": "all pairs of histories of calls that agree about the part, all parts, all modal cases, all numbers of modes, all exact eigensolvers", "why_tests_cant": "It compares modes of models of different size and numbering, with anything at all in the rest of the model; a test tries a few pairs.", "anchors": ["hyperstatic/core/fe_model/assembly.py: assemble_K, assemble_M", "hyperstatic/core/fe_solver/dynamic.py: ModalSolver.solve_eigen"]}
{"id": "C132", "title": "End forces read back in the unit in force", "statement": "The end forces answered for a member in a load case are those stored for it, all segments in order, forces and moments converted to the unit of the project.", "quantifier": "all tables of stored forces, members, cases, units", "why_tests_cant": "a test reads one member in one unit; a wrong power of the length unit shows only for moments in millimetres", "anchors": ["hyperstatic/app/general/result/result.py:44-66", "hyperstatic/app/general/model.py:195-217"]}
{"id": "C133", "title": "Periods read back", "statement": "The periods answered for a modal case are those stored for it, all of them or the one of the order asked for.", "quantifier": "all tables of periods, cases, orders", "why_tests_cant": "a test asks for all periods; the branch for one order is not reached", "anchors": ["hyperstatic/app/general/result/result.py:68-82"]}
{"id": "C134", "title": "Factors of load combinations", "statement": "The factor of a load case in a combination is the one last given for it, when the combination was made or later.", "quantifier": "all sequences of calls on a combination", "why_tests_cant": "a test that adds loads one by one never sees that the constructor drops them", "anchors": ["hyperstatic/app/general/post/combination.py:14-38"]}
{"id": "C135", "title": "Computed motions superpose", "statement": "If the start and the loads of a time history are those of two others combined with any factors, so is every state that is computed, with Newmark's method, Wilson's method and direct integration.", "quantifier": "all structures, loads, starts, factors, step sizes, numbers of steps, exact solvers", "why_tests_cant": "a test combines two load histories of one structure; an offset or a wrong power in a term that happens to be zero there is not seen", "anchors": ["hyperstatic/core/fe_solver/dynamic.py:173-237", "hyperstatic/core/fe_solver/dynamic.py:307-336", "hyperstatic/core/fe_solver/dynamic.py:338-378"]}
{"id": "C136", "title": "Motions do not depend on later loads", "statement": "The state computed for a step is the same whatever the loads after that step are.", "quantifier": "all structures, pairs of load histories that agree up to a step, step sizes, exact solvers", "why_tests_cant": "a test with one load history cannot see that a step reads a load that has not come yet", "anchors": ["hyperstatic/core/fe_solver/dynamic.py:173-237", "hyperstatic/core/fe_solver/dynamic.py:307-336", "hyperstatic/core/fe_solver/dynamic.py:338-378"]}
{"id": "C137", "title": "Sampled load curves", "statement": "A sine or cosine curve of n samples has exactly n, at the multiples of the step and with the values of the function, never above the amplitude; the number of steps of a load case is the number of values of its shortest curve.", "quantifier": "all amplitudes, frequencies, phases, steps, numbers of samples; all load cases", "why_tests_cant": "a test draws one curve", "anchors": ["hyperstatic/common/curve.py:23-36", "hyperstatic/core/fe_model/load/__init__.py:44-50"]}
{"id": "C138", "title": "A delayed load gives the delayed motion", "statement": "If the load on a structure at rest comes m steps later, the computed motion is the same m steps later.", "quantifier": "all structures, loads, delays, step sizes, numbers of steps, exact solvers", "why_tests_cant": "a test starts the load at the first step; that this step is treated differently shows only when the same load is started later", "anchors": ["hyperstatic/core/fe_solver/dynamic.py:173-237", "hyperstatic/core/fe_solver/dynamic.py:307-336", "hyperstatic/core/fe_solver/dynamic.py:338-378"]}
{"id": "C139", "title": "Displacements fall as stiffness grows", "statement": "If every member of a frame is made c times as stiff and all else is left as it is, every displacement read back is divided by c.", "quantifier": "all histories of calls, all frames without shells, all factors, loads and supports", "why_tests_cant": "a test compares two models of one size; here any frame, in any order of calls", "anchors": ["hyperstatic/core/fe_model/assembly.py: assemble_K, assemble_f, assemble_boundary", "hyperstatic/core/fe_solver/static.py: solve_linear"]}
{"id": "C140", "title": "Squares of frequencies grow as stiffness", "statement": "If every member of a frame is made c times as stiff and masses and supports are left as they are, the modes stay and the square of every circular frequency found is multiplied by c.", "quantifier": "all histories of calls, all frames without shells, all positive factors, masses and supports, all exact eigensolvers", "why_tests_cant": "a test compares the first frequencies of one model", "anchors": ["hyperstatic/core/fe_model/assembly.py: assemble_K, assemble_M, assemble_boundary", "hyperstatic/core/fe_solver/dynamic.py: solve_eigen"]}
{"id": "C141", "title": "A structure in balance stays in balance", "statement": "If the displacements of a structure at rest balance a load that does not change, Newmark's and Wilson's methods leave displacements, velocities and accelerations as they are in every step.", "quantifier": "all structures, loads, step sizes, time constants, numbers of steps, exact solvers", "why_tests_cant": "a test watches a few steps of one structure; a drift may be small or depend on the constants", "anchors": ["hyperstatic/core/fe_solver/dynamic.py:307-336", "hyperstatic/core/fe_solver/dynamic.py:338-378"]}
{"id": "C142", "title": "Uniform acceleration is followed exactly", "statement": "Under the load that causes a uniformly accelerated motion Newmark's method, started on this motion, gives its displacements, velocities and accelerations at the end of every step.", "quantifier": "all structures, motions, step sizes, values of beta and gamma, numbers of steps, exact solvers", "why_tests_cant": "a test compares one motion within a tolerance", "anchors": ["hyperstatic/core/fe_solver/dynamic.py:307-336"]}
