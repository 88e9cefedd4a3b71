# Formal model of Hyperstatic in Rocq — design

Source under study: `/repo/hyperstatic` (python), read as text only.
All model, specification and proof files live in `rocq/theories`, logical name `Verif`.

## 1. How the files are organised

* *Model files* contain the functions of the code, branch by branch, with the file and the lines
  they model: `Base` (numbers, dictionaries, sparse matrices), `Csys`, `Sections`, `Element`,
  `Load`, `FeModel`, `Assembly`, `Solver`, `Post`, `Api`, `Dynamic`, `Spectrum`, `General`,
  `Kernels`, `Grasshopper`, `Seismic`, `Thick`, `Meta`, `Dxf`, `Viewer`, `Response`, `S2k`, `Mesh`, `Build`, `CText`, `CTextT9`, `CTextDKT`, `CTextGQ12`, `CTextDKQ`, `CTextShell`.
* *Specification files* `Spec*.v` contain the words in which the properties are stated. They do not
  use the helpers of the model; where a statement is about a stored object, only its projections.
* *Proof files* `*Facts.v`, `*Proofs*.v`; *demo files* `*Demo*.v` hold concrete histories used to
  show that hypotheses can be met.
* *Property files* `Prop*.v` contain the published theorems and nothing else: each theorem is
  closed by `exact` of a lemma, followed by `Print Assumptions` and by an `Example` in which a
  concrete case meets its hypotheses. A theorem called `..._refuted` states that the property is
  false of the code, with a witness; `..._partial` says part of the property, and the comment above it
  and section 3 say what is missing.

## 2. How the code is modelled

* **Numbers.** Python floats are modelled by Coq's real numbers `R`. Rounding,
  overflow and NaN are outside the model; every theorem is about the exact
  arithmetic the code writes down. Consequence: the standard library's axioms for
  `R` show up in `Print Assumptions`.
* **Dictionaries** are insertion-ordered association lists keyed by strings
  (overwriting keeps the position, as in CPython >= 3.7).
* **Exceptions** are `None` of an `option` (or an own constructor where the state kept after the
  exception matters); `Api` methods turn them into `False`/`None` answers as the `try/except`
  wrappers do.
* **Sparse matrices** are lists of triplets; the value at (i,j) is the sum of all
  triplets with these indices (`coo_matrix` semantics), an out-of-range index is
  an error. Dense element matrices are functions `nat -> nat -> R` of known size.
* **Aliasing.** Load patterns are mutable objects shared between the interface and
  the cases; they live in an explicit heap. All other objects are immutable after
  creation (or only mutated through their owner) and are stored by value.
* **Files.** The work directory is a map from file names to contents. Pickling is
  a value snapshot. The directory is assumed to exist and be writable; names with
  path separators are not considered.
* **Execution.** `step : externals -> world -> op -> world * out`, one constructor of `op` per
  `Api` method; histories are lists of ops folded over `step`. "Observable" means:
  the outputs of every continuation.
* **External numerics.** `spsolve`, `cg`, `eigsh` are parameters, universally quantified in every
  theorem. Where a theorem needs that the solver returned a solution of the system it was given,
  this is an explicit hypothesis about that one call; C121 assumes besides that `eigsh` answers the lowest pairs
  (`lowest_eigen`), which it documents for `sigma=0`. The shell kernels are a parameter of the interface
  too; `Kernels.v` gives the kernels the repository defines symbolically (`sympy` expressions as a
  syntax tree with symbolic derivatives proved correct) and section 3 has theorems for both readings. The
  quadrature schemes of `quadpy` are parameters with the properties used (points inside, exact
  for linear functions) as hypotheses, met by the 2x2 Gauss rule and the midside rule.
* **Drawing model** (`app/general`): the database is a record of tables (`General.v`), a session
  with commit and rollback included, since some calls leave unsaved edits behind.

## 3. Per property

For each property: what is modelled, how it is proved, the theorems, and what is missing or false.

**C01 Every node owns its own block of six equations** (proved)  
*Modelled:* Model.add_node, the node dictionary and the numbering table, all Api calls. *Proof:* invariant by induction over histories with fresh node names: number = position in the listing.  
*Theorems:* `C01_numbering`, `C01_numbering_assembled`, `C01_readded_refuted`.  
*Note:* Proved for histories with fresh node names, as the statement says; C01_readded_refuted exhibits the failure when a name is added again.

**C02 A True answer means the value can be read back** (partial)  
*Modelled:* all setters and getters of the Api. *Proof:* read-after-write from dictionary laws, for all states.  
*Theorems:* `C02_read_back_partial`, `C02_mass`, `C02_restraint_refuted`.  
*Note:* Holds for every setter with a getter except set_nodal_restraint on an undefined node, which answers True and stores nothing (refuted).

**C03 A failed call changes nothing** (proved)  
*Modelled:* the whole step function. *Proof:* a failing step leaves the interface and all files unchanged, lifted to all continuations.  
*Theorems:* `C03_failed_call`.  
*Note:* Every query, assembly and solve after a failed call answers as if the call had not been made.

**C04 Setting one object never disturbs another** (proved)  
*Modelled:* setters and getters. *Proof:* dictionary frame laws, case by case; answers to queries about other names unchanged.  
*Theorems:* `C04_frame`.  

**C05 Restraining an undefined node is reported** (partial)  
*Modelled:* set_nodal_restraint. *Proof:* case analysis; witness.  
*Theorems:* `C05_undefined_refuted`, `C05_recorded_partial`.  
*Note:* Refuted: set_nodal_restraint answers True for an undefined node. Partial: recorded exactly when the node exists.

**C06 Name listings are exact** (proved)  
*Modelled:* the listings of names. *Proof:* induction over histories against a specification that only reads the list of (call, answer) pairs.  
*Theorems:* `C06_node_names`, `C06_beam_names`, `C06_shell_names`.  

**C07 Existing beams are immune to later redefinitions** (proved)  
*Modelled:* add_beam, add_simple_beam, beam queries. *Proof:* frame theorem over arbitrary histories that do not re-add the beam.  
*Theorems:* `C07_beam_immune`.  

**C08 A case sees later edits of its load patterns** (proved)  
*Modelled:* patterns in a heap, cases holding references. *Proof:* invariant under histories that never re-create a pattern name; witness otherwise.  
*Theorems:* `C08_case_sees_patterns`, `C08_recreated_refuted`.  
*Note:* Proved for histories that do not re-create a pattern name, as the statement says; C08_recreated_refuted exhibits the failure otherwise.

**C09 Solving uses the model as of the last assemble** (proved)  
*Modelled:* assemble, solve, the assembled copy on file. *Proof:* continuation equality: edits commute with solve.  
*Theorems:* `C09_edits_do_not_reach_results`, `C09_assemble_is_snapshot`.  

**C10 Results of different cases never overwrite each other** (proved)  
*Modelled:* result files. *Proof:* injectivity of the suffix encoding, frame on files.  
*Theorems:* `C10_results_kept`, `C10_saved_interfaces_kept`, `C10_assembly_kept`.  

**C11 Releases set through the API take effect** (partial)  
*Modelled:* set_beam_release. *Proof:* the call raises in every state; invariant: no reachable beam has releases.  
*Theorems:* `C11_always_fails`, `C11_releases_refuted`, `C11_never_released`.  
*Note:* Refuted: set_beam_release raises for every existing beam, so no beam is ever released through the interface.

**C12 Pipe sections have pipe properties** (partial)  
*Modelled:* add_beam_section_pipe. *Proof:* unfolding the call with exact arithmetic.  
*Theorems:* `C12_pipe_always_wrong`, `C12_pipe_refuted`.  
*Note:* Refuted for every pipe section: thickness and diameter are swapped on the way to the section.

**C13 add_shell connects the given nodes with the given section** (partial)  
*Modelled:* add_shell. *Proof:* characterisation of when it succeeds and what it builds; witness.  
*Theorems:* `C13_shell_refuted`, `C13_shell_partial`.  
*Note:* Refuted: add_shell never answers True for a new four-node shell with a defined section in the way documented. Partial: what is created when it is accepted.

**C14 Every documented result call can succeed** (partial)  
*Modelled:* five result calls. *Proof:* the answer is failure in every state.  
*Theorems:* `C14_never_succeed_refuted`.  
*Note:* Refuted: none of the five calls succeeds in any state.

**C15 Reported DOF count is the number of free equations** (proved)  
*Modelled:* Assembly.__init__. *Proof:* counting the restrained numbers.  
*Theorems:* `C15_count`.  
*Note:* State right after assemble; node names fresh.

**C16 Elimination keeps exactly the free-free submatrix** (proved)  
*Modelled:* drop_matrix_dof. *Proof:* induction over the sorted index list: the compaction map is the rank among the free indices.  
*Theorems:* `C16_elimination`.  

**C17 Matrix and load vector are reduced consistently** (proved)  
*Modelled:* drop_vector_dof. *Proof:* the filtered list is the enumeration of the free indices.  
*Theorems:* `C17_vector`.  

**C18 Expanding the solution inverts the elimination** (proved)  
*Modelled:* expansion in solve_linear. *Proof:* loop invariant.  
*Theorems:* `C18_expansion`, `C18_too_short`.  

**C19 Static solution satisfies equilibrium at every free DOF** (partial)  
*Modelled:* solve_linear end to end. *Proof:* composition of C16-C18 and C22; hypothesis: the solver returned a solution.  
*Theorems:* `C19_equilibrium_partial`, `C19_refuted`.  
*Note:* Proved if the case table is empty or has a True. Refuted for a case table of only False entries (nothing eliminated, expansion by the global table).

**C20 Case restraints replace global restraints as a whole** (partial)  
*Modelled:* assemble_boundary, restraintDOF. *Proof:* case analysis on the two tables; witness for the mismatch.  
*Theorems:* `C20_tables_partial`, `C20_refuted`.  
*Note:* Both rules proved exactly. They differ, and the property is refuted, for a case table of only False entries.

**C21 The assembled stiffness is the sum of element energies** (proved)  
*Modelled:* assemble_K. *Proof:* the quadratic form of a triplet list is the sum over elements.  
*Theorems:* `C21_defined`, `C21_energy`, `C21_row`.  
*Note:* Energies are written in closed form from end points and constants, independently of the element matrices.

**C22 The assembled stiffness matrix is symmetric** (proved)  
*Modelled:* assemble_K, kernels. *Proof:* element symmetry and congruence.  
*Theorems:* `C22_symmetric`, `C22_symmetrise`, `C22_code`.  
*Note:* For the kernels of the code with any quadrature (C22_code), and for any kernels that return symmetric matrices.

**C23 The assembled stiffness matrix is positive semidefinite** (proved)  
*Modelled:* assemble_K, kernels. *Proof:* sum of squares per element.  
*Theorems:* `C23_psd`, `C23_code`.  
*Note:* Beams as stated; beyond it models with shells, with the kernels of the code and plane quadrilaterals without re-entrant corner (C23_code).

**C24 Rigid motions cost nothing and nodal forces balance** (proved)  
*Modelled:* assemble_K, axes, kernels. *Proof:* a rigid motion in local axes is in the kernel of each element; resultants by symmetry.  
*Theorems:* `C24_no_force`, `C24_balance`, `C24_shells_partial`, `C24_shells_balance_partial`.  
*Note:* Beam models with fresh node names (see C01). Beyond the statement: models with shells and motions that turn no membrane in its own plane (C24_shells_partial).

**C25 Insertion order of beams is irrelevant** (proved)  
*Modelled:* assemble_K, assemble_f. *Proof:* permutation invariance of triplet sums.  
*Theorems:* `C25_order`.  
*Note:* Beam names distinct. Covers stiffness, load vectors and mass matrix.

**C26 Loads superpose linearly** (proved)  
*Modelled:* assemble_f. *Proof:* linearity in the factors.  
*Theorems:* `C26_linear`, `C26_scale`, `C26_superpose`, `C26_defined`.  

**C27 No load is lost or invented** (partial)  
*Modelled:* assemble_f. *Proof:* resultants of element vectors through the transposed rotation; integrals of the line loads.  
*Theorems:* `C27_resultants`, `C27_line`, `C27_stray_refuted`.  
*Note:* Proved for forces and moments of all loads on nodes and members of the model. Refuted for loads put on names that are neither: they are accepted and dropped.

**C28 Distributed member loads are work-equivalent** (proved)  
*Modelled:* Pattern.get_beam_f. *Proof:* work on every cubic deflection, compared with the Riemann integral of the load times the deflection.  
*Theorems:* `C28_work`.  

**C29 Concentrated member loads are work-equivalent** (proved)  
*Modelled:* Pattern.get_beam_f. *Proof:* work on every cubic deflection at the point of the load.  
*Theorems:* `C29_work`, `C29_both`.  

**C30 Member loads can be read back** (partial)  
*Modelled:* load getters. *Proof:* dictionary laws; witness.  
*Theorems:* `C30_distributed`, `C30_concentrated_refuted`.  
*Note:* Proved for distributed loads. Refuted for concentrated loads: the query reads the table of distributed loads.

**C31 The nodal load table of a case agrees with the per-node query** (partial)  
*Modelled:* LoadCase.get_nodal_f_dict. *Proof:* induction over the patterns of the case; witness.  
*Theorems:* `C31_table_partial`, `C31_refuted`.  
*Note:* The table lacks exactly the contribution of the first pattern that loads the node; equality refuted.

**C32 Time-history load rows agree with the per-step load** (partial)  
*Modelled:* get_nodal_f_time_history. *Proof:* list induction; witness.  
*Theorems:* `C32_rows_partial`, `C32_defined`, `C32_rejected`, `C32_refuted`.  
*Note:* Proved, with rejection of unequal lengths, except for single-sample curves, which numpy broadcasts (refuted).

**C33 Local axes are orthonormal and right-handed** (partial)  
*Modelled:* Cartesian. *Proof:* algebra over R with norms as square roots.  
*Theorems:* `C33_rejected`, `C33_accepted`, `C33_set_by_3pts_refuted`, `C33_set_by_3pts_origin`.  
*Note:* Proved for the constructor. Refuted for set_by_3pts.

**C34 Rotations keep axes orthonormal and compose** (proved)  
*Modelled:* rotations of Cartesian. *Proof:* trigonometric identities through the quaternion formula.  
*Theorems:* `C34_own_axes`, `C34_fixed_axes`.  

**C35 Degenerate beams are rejected, proper beams accepted** (partial)  
*Modelled:* Line.__init__, add_beam. *Proof:* case analysis on the tolerance; witness.  
*Theorems:* `C35_iff_partial`, `C35_coincident`, `C35_refuted`.  
*Note:* Coincident ends proved to be refused. Exact acceptance condition proved; refuted that every separated pair is accepted (steep beams are refused).

**C36 Beam stiffness is the exact Euler-Bernoulli solution** (proved)  
*Modelled:* integrate_K of the beam. *Proof:* polynomial identity against the differential equations of the bar.  
*Theorems:* `C36_defined`, `C36_exact`, `C36_fields`.  

**C37 Element stiffness is symmetric, semidefinite, with exactly the rigid motions as kernel** (proved)  
*Modelled:* integrate_K of the beam. *Proof:* explicit sum of squares; the kernel by solving for zeros.  
*Theorems:* `C37_symmetric`, `C37_kernel`.  

**C38 A beam is the same drawn in either direction** (proved)  
*Modelled:* Line, transformation, assembly. *Proof:* transformed element matrices with the ends exchanged.  
*Theorems:* `C38_flip`, `C38_accepted`.  

**C39 A released end force is zero** (partial)  
*Modelled:* static_condensate. *Proof:* elimination identity for the last release; witness for several.  
*Theorems:* `C39_last_partial`, `C39_load_partial`, `C39_two_hinges`, `C39_refuted`.  
*Note:* Proved for the highest released number. Refuted for the others: every step restarts from the uncondensed matrix.

**C40 Beam mass is conserved** (proved)  
*Modelled:* integrate_M, assemble_M. *Proof:* sums over nodes and members.  
*Theorems:* `C40_element`, `C40_consistent`, `C40_consistent_refuted`, `C40_inertia`, `C40_symmetric`, `C40_nonneg`, `C40_translation`, `C40_defined`.  
*Note:* Element and whole model; node names fresh for the translation statement. The unused consistent matrix is refuted separately.

**C41 Deformation results agree with the nodal results at the beam ends** (partial)  
*Modelled:* resolve_beam_deformation. *Proof:* evaluation at both ends; witness.  
*Theorems:* `C41_ends_partial`, `C41_wrong`, `C41_refuted`.  
*Note:* Exact answers at both ends for every member. Five of six values right at the end and three at the start if the start is numbered first; the property is refuted.

**C42 Nodal displacement queries read the node's own block** (proved)  
*Modelled:* resolve_nodal_displacement. *Proof:* slicing lemma.  
*Theorems:* `C42_block`, `C42_unknown`, `C42_all`, `C42_all_answers`.  

**C43 Section constants satisfy the composition laws** (partial)  
*Modelled:* the section classes. *Proof:* field identities; bounds for the tanh series; bounds for pi from the Machin formula of the library.  
*Theorems:* `C43_box`, `C43_I_partial`, `C43_I_wrong`, `C43_I_refuted`, `C43_rectangle`, `C43_rectangle_J_partial`, `C43_rectangle_J_negative`, `C43_rectangle_J_refuted`, `C43_circle`, `C43_pipe`, `C43_solid_pipe`, `C43_solid_pipe_shear`, `C43_solid_pipe_refuted`.  
*Note:* Box, rectangle, circle and pipe proved. Refuted: weak inertia of every I shape, torsion constant of very flat rectangles, shear area of the solid pipe.

**C44 Elastic constants are mutually consistent** (partial)  
*Modelled:* IsotropicMaterial. *Proof:* field identities; witness.  
*Theorems:* `C44_shear`, `C44_lamda_partial`, `C44_lamda_iff_partial`, `C44_lamda_refuted`.  
*Note:* Shear modulus proved. Refuted: the Lame constant lacks the factor mu.

**C45 Shell areas are the geometric areas** (partial)  
*Modelled:* areas of Tria and Quad. *Proof:* vector algebra; witness.  
*Theorems:* `C45_tria_partial`, `C45_tria_plane_partial`, `C45_tria_refuted`, `C45_parallelogram_wrong`, `C45_parallelogram_refuted`.  
*Note:* Refuted for triangles (wrong unless the normal components add up to one) and for every parallelogram.

**C46 Any non-degenerate shell is accepted** (partial)  
*Modelled:* axes of Tria and Quad. *Proof:* vector algebra; witness.  
*Theorems:* `C46_quad`, `C46_tria_partial`, `C46_tria_refuted`.  
*Note:* Quadrilaterals proved. Triangles: rejected exactly when the normal points downwards (refuted).

**C47 Shell element matrices are placed on the right DOFs** (proved)  
*Modelled:* placement of membrane and plate matrices in the shell matrix. *Proof:* index bookkeeping, for arbitrary sub-matrices.  
*Theorems:* `C47_quad`, `C47_tria`, `C47_symmetric`, `C47_psd`.  
*Note:* Symmetry and semidefiniteness under the hypothesis that the compiled kernels (GQ12, DKQ, DKT) have them; the triangle membrane is computed in the model. Through the assembly: C22, C23.

**C48 Triangular membrane passes the constant-strain and rigid-body test** (partial)  
*Modelled:* T9 membrane. *Proof:* exact work and forces of the rotation field; witness.  
*Theorems:* `C48_translation_partial`, `C48_rotation_work`, `C48_rotation_force`, `C48_rotation_refuted`, `C48_stretch_no_force`.  
*Note:* Translations proved. Refuted for every proper triangle under rotation (the shape functions use b for both derivatives); a uniform stretch along local y meets no resistance.

**C49 Modal frequencies are consistent with the eigenvalues** (partial)  
*Modelled:* solve_modal, resolve_modal_frequency. *Proof:* algebra; eigsh a parameter; witness.  
*Theorems:* `C49_partial`, `C49_only_one`, `C49_refuted`.  
*Note:* f*T=1 and what 2*pi*f is proved through the modal solver; agreement with the eigenvalue holds only for eigenvalue 1, otherwise refuted (the stored numbers are squares). eigsh is a parameter.

**C50 Rayleigh damping hits the target ratios** (proved)  
*Modelled:* Rayleigh coefficients. *Proof:* field identities.  
*Theorems:* `C50_ratios`, `C50_modes`.  

**C51 Direct time integration is the central difference scheme** (partial)  
*Modelled:* direct time integration. *Proof:* recurrence of the stored rows by induction over the steps; witness.  
*Theorems:* `C51_partial`, `C51_refuted`, `C51_only_six`.  
*Note:* Exact recurrence of the stored rows proved for all inputs; it is the central difference equation at the first step only, refuted from the second on (rows are taken one step late). Runs only with six free equations. cg is a parameter.

**C52 Newmark steps satisfy motion and kinematics** (partial)  
*Modelled:* Newmark step. *Proof:* algebra per step; witness.  
*Theorems:* `C52_partial`, `C52_refuted`.  
*Note:* Equation of motion and velocity relation proved for every step; displacement relation refuted (sign of b3), with the exact condition under which it holds. The routine as written names an undefined self; the matrices are parameters.

**C53 CQC coefficients are a correlation** (proved)  
*Modelled:* CQC combination. *Proof:* algebra and positivity of quadratic forms; semidefiniteness by writing the coefficients as integrated products of impulse responses.  
*Theorems:* `C53_range`, `C53_symmetric`, `C53_equal`, `C53_srss`, `C53_below_sum`, `C53_above_srss`, `C53_positive`.  
*Note:* Also ordered between SRSS and the absolute sum, and the sum under the root is nonnegative for damping below 1.

**C54 The design spectrum is continuous, positive and consistent** (partial)  
*Modelled:* the two design spectra. *Proof:* case analysis at the breakpoints; continuity from the library.  
*Theorems:* `C54_agree`, `C54_tables`, `C54_table`, `C54_table_step`, `C54_continuous`, `C54_short_refuted`, `C54_positive`, `C54_falls`, `C54_peak`.  
*Note:* Proved: each of the two functions returns the standard four-piece curve at every period in [0,6], the curve is positive, falls on the two falling branches and peaks on the plateau, and the sampled tables agree with the curve. Continuity on [0,6] is proved when the characteristic period is at least 0.1 s and refuted below it.

**C55 Unit conversion is consistent and invertible** (partial)  
*Modelled:* unit tables and calls that convert. *Proof:* linear maps; witnesses.  
*Theorems:* `C55_thickness`, `C55_coordinates`, `C55_roundtrip`, `C55_same_place`, `C55_tolerance`, `C55_displacement`, `C55_reaction`, `C55_concentrated`, `C55_distributed_partial`, `C55_distributed_refuted`, `C55_joint_loads_lost`, `C55_joint_load_refuted`, `C55_material`, `C55_elastic_refuted`.  
*Note:* Proved for coordinates, tolerance, displacements, reactions, concentrated frame loads and new materials. Refuted for distributed frame loads in millimetres, for joint loads (the numbers are lost in every unit) and for changing a modulus.

**C56 Both ends of a drawn frame are placed in the same unit system** (partial)  
*Modelled:* add_frame by end points. *Proof:* case analysis over units; witness.  
*Theorems:* `C56_partial`, `C56_drawn`, `C56_refuted`.  
*Note:* Proved when the unit of length is the metre, and for the first end in any unit; refuted for the second end in millimetres.

**C57 Second-order solve expands its solution correctly** (partial)  
*Modelled:* solve_2nd_order. *Proof:* loop invariant for insertion in order; witness.  
*Theorems:* `C57_sorted_partial`, `C57_refuted`.  
*Note:* Proved if the table lists its nodes in numbering order. Refuted otherwise: zeros are inserted unsorted.

**C58 A saved interface is restored exactly** (proved)  
*Modelled:* save, load. *Proof:* snapshot and continuation equality.  
*Theorems:* `C58_round_trip`, `C58_results`.  

**C59 Results stay attached to their model** (partial)  
*Modelled:* files against the assembled copy. *Proof:* frame theorem over histories; witness.  
*Theorems:* `C59_results_stay_partial`, `C59_refuted`.  
*Note:* Proved while no node is re-added and nothing is loaded. Refuted when a node is added again and the model re-assembled.

**C60 Beam and simple beam agree** (proved)  
*Modelled:* Beam, SimpleBeam. *Proof:* comparison of the two element definitions.  
*Theorems:* `C60_agree`.  

**C61 Nodes merged on request never coincide** (partial)  
*Modelled:* Model.add_node with the duplicate check. *Proof:* invariant over all additions; witness.  
*Theorems:* `C61_apart`, `C61_answer`, `C61_per_coordinate_refuted`.  
*Note:* Proved for the Euclidean distance, which the code measures, for any sequence of additions including repeated names. Refuted for tolerance per coordinate.

**C62 A proper case is always solved** (proved)  
*Modelled:* solve_static. *Proof:* totality of each stage.  
*Theorems:* `C62_solves`.  
*Note:* State right after assemble.

**C63 Wilson steps satisfy motion and kinematics** (partial)  
*Modelled:* Wilson step and run. *Proof:* algebra per step, induction over the history; witness.  
*Theorems:* `C63_partial`, `C63_history_partial`, `C63_refuted`.  
*Note:* Kinematic relations proved; the equation of motion at the extrapolated time is refuted (sign of b3) except for beta=1/2 or zero acceleration.

**C64 The response spectrum is read at the period of the mode** (partial)  
*Modelled:* response spectrum solver. *Proof:* algebra; witness.  
*Theorems:* `C64_only_one`, `C64_refuted`.  
*Note:* Holds only for eigenvalue 1; refuted otherwise (the root is taken twice).

**C65 The damping ratio of a time-history case is used** (partial)  
*Modelled:* damping of the time-history case. *Proof:* independence of the argument.  
*Theorems:* `C65_ignored`, `C65_refuted`.  
*Note:* Refuted: the ratio has no effect for any input.

**C66 Newmark states carry their time** (partial)  
*Modelled:* Newmark routine. *Proof:* list induction; witness.  
*Theorems:* `C66_only_offset`, `C66_refuted`.  
*Note:* Holds only if the list of times starts with one step; refuted for times from 0 on.

**C67 Beams and shells are numbered in the order they are listed** (partial)  
*Modelled:* numbering of beams and shells. *Proof:* invariant over histories; witness.  
*Theorems:* `C67_beams_partial`, `C67_shells_partial`, `C67_assembled_partial`, `C67_refuted`.  
*Note:* Proved for all histories that add beams and shells under new names, for the model and for the assembled copy; refuted when a name is used again (two beams share a number).

**C68 A failing call of the drawing model changes nothing** (partial)  
*Modelled:* calls of the drawing model, commit and rollback. *Proof:* case analysis of every call; witness.  
*Theorems:* `C68_partial`, `C68_refuted`, `C68_raise_refuted`.  
*Note:* Proved for calls answering False right after a save. Refuted after unsaved edits and for calls that raise.

**C69 Frames drawn as a batch end at the points given** (partial)  
*Modelled:* add_frame_batch, merge_map, sort_joints. *Proof:* induction over the batch; sortedness and stability of the sort, the first of each group of coinciding joints stays; witness.  
*Theorems:* `C69_new_frames_partial`, `C69_placed_partial`, `C69_answers`, `C69_earlier_partial`, `C69_distance_refuted`, `C69_earlier_refuted`.  
*Note:* Proved: the frames of a batch run between two different joints of the model and have the section asked for; if joints and points coincide or are at least the tolerance apart, the frames run between exactly the points given, frames that meet share a joint and earlier frames stay as they are. Refuted in general: the distance to the points given, and that earlier frames keep their joints.

**C70 Joints are found by their coordinates** (partial)  
*Modelled:* joint look-up. *Proof:* case analysis over units; witness.  
*Theorems:* `C70_partial`, `C70_refuted`.  
*Note:* Proved when the unit of length is the metre; refuted in millimetres.

**C71 Stored section constants are those of the profile** (partial)  
*Modelled:* sections of the drawing model. *Proof:* field identities; witness.  
*Theorems:* `C71_circle`, `C71_pipe_partial`, `C71_pipe_refuted`, `C71_I_refuted`, `C71_box_refuted`.  
*Note:* Proved for circles and, but for the torsional constant, for pipes. Refuted for the torsional constant of pipes, for the I section every project has, and for boxes (refused).

**C72 The ends of a frame are answered start first** (partial)  
*Modelled:* end query of frames. *Proof:* case analysis on the order of names; witness.  
*Theorems:* `C72_partial`, `C72_refuted`.  
*Note:* Proved: the answer is the two ends in one of the two orders, start first if the name of the start joint sorts first. Refuted in general.

**C73 Every frame refers to existing joints and an existing section** (partial)  
*Modelled:* all calls of the drawing model. *Proof:* invariant over call sequences; witness.  
*Theorems:* `C73_partial`, `C73_section_refuted`, `C73_merge_refuted`.  
*Note:* Proved for all sequences of calls without merging, batches and change of section; refuted for merging and for change of section.

**C74 The membrane of the quadrilateral passes the patch test** (partial)  
*Modelled:* GQ12 membrane kernel. *Proof:* symbolic strain field, quadrature as a linear functional; witness.  
*Theorems:* `C74_constant_strain`, `C74_element`, `C74_rigid_partial`, `C74_parallelogram_partial`, `C74_drilling_refuted`.  
*Note:* Patch test proved for every convex quadrilateral, kernel and whole element. Rigid motions: proved with zero drilling values, and with the drilling values of the rotation for parallelograms under the Gauss rule; refuted in general.

**C75 The plate of the triangle is the discrete Kirchhoff triangle** (proved)  
*Modelled:* DKT plate kernel. *Proof:* symbolic slope field and curvature; exact polynomial identities.  
*Theorems:* `C75_slopes`, `C75_constant_curvature`, `C75_rigid`, `C75_element`.  
*Note:* The stored area of the triangle is taken as it is (C45).

**C76 The plate of the quadrilateral is the discrete Kirchhoff quadrilateral** (partial)  
*Modelled:* DKQ plate kernel. *Proof:* symbolic slope field and curvature; witness.  
*Theorems:* `C76_slopes`, `C76_rigid`, `C76_square_partial`, `C76_rectangle`, `C76_refuted`.  
*Note:* Slope field and rigid deflections proved for every convex quadrilateral, constant curvature for squares; refuted for rectangles (the inverse Jacobian has its diagonal exchanged) with the exact factor.

**C77 The mappings to the reference shapes are regular and keep the area** (proved)  
*Modelled:* Jacobians and element axes of the kernels. *Proof:* bilinear positivity from the corners; structural induction over expressions for derivatives.  
*Theorems:* `C77_jacobian`, `C77_area`, `C77_quad`, `C77_tria`, `C77_derivative_xi`, `C77_derivative_eta`.  
*Note:* Triangles whose normal is not nearly -Z (C46).

**C78 The model holds exactly what the calls said** (proved)  
*Modelled:* all calls that define something, save, load, assemble. *Proof:* simulation between the model and a notebook that only reads calls and answers.  
*Theorems:* `C78_told`, `C78_assembled`.  
*Note:* A pipe is taken as a rectangle (C12) and the arguments of a shell in the order section, corners (C13); what a shape makes of its dimensions is C43.

**C79 The loads and cases are those the calls said** (proved)  
*Modelled:* pattern and case calls, save, load, assemble, load vector. *Proof:* simulation with a second notebook in which patterns are known by the number of their creation; the load vector through the virtual work of C26.  
*Theorems:* `C79_told`, `C79_assembled`, `C79_vector`.  
*Note:* The load vector statement is for cases that load nodes only and histories that never re-add a node; member loads enter through C26, C27 and C40.

**C80 Points of a drawing are merged into nodes within the tolerance** (partial)  
*Modelled:* find_pt, the loops over special nodes and beams. *Proof:* induction over the entries with the list of nodes as state; first index below the tolerance.  
*Theorems:* `C80_entries`, `C80_ends`, `C80_apart`, `C80_short_refuted`.  
*Note:* The distance between nodes holds when no beam is shorter than the tolerance; false otherwise (C80_short_refuted).

**C81 Nodes and beams of a drawing keep distinct names** (partial)  
*Modelled:* generated names, merging by name. *Proof:* invariant: a node is one of the drawing or is numbered by its place; decimal numerals are injective; witnesses.  
*Theorems:* `C81_names`, `C81_nodes_refuted`, `C81_beams_refuted`.  
*Note:* Proved for drawings whose own names are distinct per point and do not begin with gen_; false for the names the repository gives when two node components or two beam components are used.

**C82 The generated script builds the drawing in metres and newtons** (partial)  
*Modelled:* the script as a list of interface calls run on the model of the interface, %f as rounding to six decimals. *Proof:* the calls are cut in parts and what each part tells is followed with the notebooks of C78 and C79; six-decimal points that differ are far enough apart for a beam; witnesses.  
*Theorems:* `C82_runs`, `C82_beam`, `C82_there`, `C82_there_rectangle`, `C82_there_I`, `C82_restraint`, `C82_load`, `C82_kilonewton_refuted`, `C82_moment_refuted`, `C82_digits_refuted`, `C82_own_material`, `C82_box`, `C82_round`.  
*Note:* Nodes, restraints, loads, beams and general, rectangular and I sections are proved to arrive, to six decimals, for N and metres; false for kN, for moments in millimetres, for small second moments of area, for box, circle and pipe sections, and for every beam whose material comes from the component of the repository (it lacks the coefficient of expansion). Presence of a beam is proved for these sections and a length above twice the tolerance plus two micrometres.

**C83 Records are scaled to the peak asked for** (partial)  
*Modelled:* max_of, amptitude, scale_record. *Proof:* the largest value of a list scaled by a factor; witnesses.  
*Theorems:* `C83_proportional`, `C83_record`, `C83_peak`, `C83_peak_record`, `C83_refuted`, `C83_turned`, `C83_defined`.  
*Note:* The scaled record is proportional to the record, and has the peak asked for if the largest value of the record is its peak; false when the peak is negative (C83_refuted).

**C84 The Duhamel spectrum is the response of the damped oscillator** (partial)  
*Modelled:* duhamel, spectrum_at, wave2spectrum. *Proof:* the discrete convolution rewritten as a sum of impulse responses; the impulse response is checked against the differential equation; witnesses.  
*Theorems:* `C84_impulse`, `C84_spectrum_partial`, `C84_defined`, `C84_periods`, `C84_undamped`, `C84_refuted`, `C84_linear`, `C84_nonneg`, `C84_sign_refuted`, `C84_short_periods`.  
*Note:* Without damping every displacement is the Duhamel sum asked for; with damping the theorem gives the oscillator that is actually computed, and C84_refuted shows it is another one. The largest value is taken instead of the largest absolute value (C84_sign_refuted).

**C85 The Fourier spectrum is the steady response of the damped oscillator** (partial)  
*Modelled:* fft_at, ifft_real_at, fftfreq_at, max_response, fft2spec. *Proof:* orthogonality of the sampled cosines by the closed sum of a geometric progression in real form; linearity for sums; the steady motion is checked against the differential equation; witnesses.  
*Theorems:* `C85_steady`, `C85_harmonics_partial`, `C85_defined`, `C85_refuted`, `C85_static`, `C85_cut`, `C85_cut_refuted`.  
*Note:* Exact for sums of harmonics of the sampled length, for the oscillator of frequency sqrt(1-xi) w; false for the frequency w (C85_refuted), and records longer than 4096 samples are cut (C85_cut_refuted). The transform is modelled as the sum that defines it, not as a fast algorithm.

**C86 The records selected are those that fit the target spectrum best** (partial)  
*Modelled:* select and its loop, range_error, sort_err. *Proof:* invariant of the loop over files, insertion sort is a sorted permutation; witnesses.  
*Theorems:* `C86_chosen_partial`, `C86_error_refuted`, `C86_curves_partial`, `C86_same_step`, `C86_curves_refuted`.  
*Note:* The records chosen are those of least error, where the error compares each ordinate with the target one step earlier and leaves out the last sample; false for the error of equal periods (C86_error_refuted). The curve drawn is right if all records have one step, false otherwise.

**C87 Envelopes are continuous and between 0 and 1** (partial)  
*Modelled:* envelope, envelope2, power. *Proof:* limits glued at the break points; monotone exponential; witness.  
*Theorems:* `C87_range`, `C87_range_generator`, `C87_continuous`, `C87_jump_refuted`, `C87_continuous_generator`, `C87_power`.  
*Note:* Range and continuity are proved; the envelope of wave2spec jumps at 40 s (C87_jump_refuted). Random phases and the fitting loop are not modelled.

**C88 The thick plate kernel bends and shears as a plate** (proved)  
*Modelled:* tm_Gamma, tm_Xs, tm_Ys, tm_alpha, tm_beta, tm_Bs, tm_Bb, tmq_K. *Proof:* the ends of a beam with shear determine its cubic; the quotient of the script is that of the beam; shear at corners by two equations; derivatives of the symbolic expressions are derivatives; quadratics have no shear and mean slopes at the middles, linear slopes are met by eight-node interpolation; Jacobian and area as for the Kirchhoff plate.  
*Theorems:* `C88_side`, `C88_side_exists`, `C88_thin`, `C88_kirchhoff`, `C88_shear`, `C88_bending`, `C88_constant_curvature`, `C88_rigid`, `C88_symmetric`, `C88_nonneg`.  
*Note:* The matrices of the script are modelled as it derives them symbolically; simplification, code printing and compiling are not. Quadrature points and weights are arbitrary within the hypotheses; gauss2 meets them.

**C89 The thick shell element moves rigidly without force and meets constant strain** (partial)  
*Modelled:* tmgq_kernels, tmgq_K. *Proof:* splitting of the element into membrane and plate; the shear of a tilt is the same vector at all corners of a square, so its energy is positive at every point; witness.  
*Theorems:* `C89_slopes_partial`, `C89_rigid_partial`, `C89_tilt`, `C89_rigid_refuted`, `C89_symmetric`, `C89_nonneg`.  
*Note:* The element hands rotations to a kernel that expects slopes: constant curvature and tilts are met if the values are slopes (C89_slopes_partial), translations and in-plane rotations without drilling values always (C89_rigid_partial); false for tilts (C89_rigid_refuted, and C89_tilt for every square).

**C90 The symbolic beam stiffness is the strain energy of the member and the matrix of the element** (partial)  
*Modelled:* p_at .. p_between, lin_N, cub_N, cub_N3, bK1, bK2, bK3, put, meta_K. *Proof:* polynomials by coefficient lists, fundamental theorem of calculus; entries of the blocks; sums over the placed blocks; witness.  
*Theorems:* `C90_integral`, `C90_work_integral`, `C90_energy`, `C90_work`, `C90_agree_partial`, `C90_refuted`.  
*Note:* The matrix is the strain energy of the fields (C90_energy) with the two inertias exchanged against the element: equal entry by entry when they are equal (C90_agree_partial), false otherwise (C90_refuted).

**C91 The symbolic beam mass is the kinetic energy of the member** (partial)  
*Modelled:* bM1, bM2, meta_M. *Proof:* as C90, the integral of the product of the fields.  
*Theorems:* `C91_integral`, `C91_moved`, `C91_refuted`.  
*Note:* What the matrix is instead is proved for all members (C91_integral, C91_moved); the claim is false (C91_refuted).

**C92 Interpolation functions reproduce the fields they are made for** (proved)  
*Modelled:* hermite1, hermite2, lagrange1, lagrange2. *Proof:* identities of polynomials; the sixteen products factor.  
*Theorems:* `C92_hermite`, `C92_hermite2`, `C92_lagrange`.  
*Note:* The functions of the two modules, with their symbols as real arguments.

**C93 Stress and strain obey Hooke's law** (partial)  
*Modelled:* iso_D, iso_eps, iso_sig, mat_iso_G, mat_iso_lamda. *Proof:* sums over two indices; solving the six equations; the work as a sum of squares with 2G and the bulk modulus.  
*Theorems:* `C93_hooke`, `C93_energy`, `C93_shear`, `C93_lamda_partial`, `C93_lamda_refuted`.  
*Note:* Proved of the script and of the shear modulus of the material class; the second Lame constant of the class lacks the factor mu (C93_lamda_partial with it, C93_lamda_refuted). The property D of the class cannot be read (it takes arguments) and is not modelled.

**C94 Drawing an area adds it to the model** (partial)  
*Modelled:* add_area, add_area_batch, add_joint_of_area, str_join. *Proof:* case analysis: every path meets one of the two failing calls; witness.  
*Theorems:* `C94_refused`, `C94_batch_refused`, `C94_refuted`.  
*Note:* False of the code: no area is ever added (C94_refused, C94_batch_refused for all arguments, C94_refuted).

**C95 Importing a drawing adds what it shows, or nothing** (partial)  
*Modelled:* dxf_lines, dxf_faces, import_dxf. *Proof:* the chosen lines by induction on the drawing, then C69; witness.  
*Theorems:* `C95_frames_partial`, `C95_defaults`, `C95_face_refused`, `C95_refuted`.  
*Note:* Proved of lines for all drawings, layers and models whose points coincide or are at least the tolerance apart (C95_frames_partial, C95_defaults); with a face the answer is False though the lines are imported and saved (C95_face_refused, C95_refuted).

**C96 Exporting and importing a drawing gives the members back** (partial)  
*Modelled:* export_dxf, end_coors, line_of. *Proof:* induction on the frames; composed with C95; witnesses.  
*Theorems:* `C96_export`, `C96_round_partial`, `C96_direction_refuted`, `C96_unit_refuted`.  
*Note:* What is written is proved for all models (C96_export); there and back up to direction and unit (C96_round_partial); both are lost (C96_direction_refuted, C96_unit_refuted).

**C97 The viewer shows the model that was saved** (partial)  
*Modelled:* path_join, viewer_path, open_view, init_nodes, init_beams, init_shells, scene_radius, init_restraints. *Proof:* induction over the listings of the interface; the ends of beams by an invariant over all calls.  
*Theorems:* `C97_file_partial`, `C97_file_refuted`, `C97_opens`, `C97_opens_refuted`, `C97_picture`, `C97_beams_partial`, `C97_beams_refuted`.  
*Note:* Proved for all models reachable through the interface: which are opened (C97_opens), and of nodes, beams, shells, scale and restraints in the picture (C97_picture). False of relative directories (C97_file_refuted), of triangles (C97_opens_refuted) and of beams one of whose nodes was added a second time (C97_beams_refuted).

**C98 The deformed picture is the model moved by the displacements** (partial)  
*Modelled:* show_deformation, displace, line_scals, handle, presses, seen_nodes. *Proof:* induction over the answered displacements; invariants over all sequences of presses; witnesses on a solved cantilever.  
*Theorems:* `C98_shows`, `C98_deformed`, `C98_window`, `C98_nodes_partial`, `C98_nodes_refuted`, `C98_label_refuted`.  
*Note:* The deformed drawing and the buttons of the deformation are proved for all models and all sequences of presses (C98_shows, C98_deformed, C98_window); the nodes follow only under C98_nodes_partial (C98_nodes_refuted, C98_label_refuted). The case is always "case1".

**C99 Load arrows show the nodal loads** (partial)  
*Modelled:* load_arrows, loaded, arrow_scale. *Proof:* induction over the nodes; maximum of a list; witnesses.  
*Theorems:* `C99_opens`, `C99_arrows`, `C99_moment_refuted`, `C99_pattern_refuted`.  
*Note:* The arrows are proved for all models (C99_opens, C99_arrows). False of moments and of patterns of another name than "pat1" (C99_moment_refuted, C99_pattern_refuted).

**C100 Buttons switch what they name** (partial)  
*Modelled:* basic_toggle, load_toggle. *Proof:* induction over all sequences of presses; witness.  
*Theorems:* `C100_basic`, `C100_load_partial`, `C100_load_refuted`.  
*Note:* Proved of the basic viewer for all sequences of presses (C100_basic); of the load viewer except for beams (C100_load_partial, C100_load_refuted).

**C101 Response spectrum analysis combines the shares of the modes** (partial)  
*Modelled:* get_settings, response_solve, np_interp, kept, ordinates, combined, participation, modal_response. *Proof:* case analysis of the settings; any N+1 vectors of size N are dependent, by induction, so orthogonal modes span the ground movement; witness.  
*Theorems:* `C101_classes`, `C101_never`, `C101_response_partial`, `C101_ordinate`, `C101_complete_partial`, `C101_complete_refuted`, `C101_scale`, `C101_fewer`.  
*Note:* The solver never answers (C101_classes, C101_never). For the numbers of its lines: proved for a diagonal mass matrix and all modes (C101_response_partial, C101_complete_partial, C101_scale, C101_ordinate); false of coupled masses (C101_complete_refuted) and of fewer modes than equations (C101_fewer).

**C102 Every table of a SAP2000 file is read as written** (partial)  
*Modelled:* lines_of, split_row, cut_equal, strip, row_dict, join_lines, parse_lines, blocks_from, title, tables_from, read_tables, import_s2k. *Proof:* a file is printed from its tables and read back: induction over fields, rows, lines and tables; invariant of the dictionaries; witnesses.  
*Theorems:* `C102_reads_partial`, `C102_last`, `C102_underscore_refuted`, `C102_gaps_refuted`, `C102_unquoted`, `C102_import_refuted`.  
*Note:* Proved for files with a line after every table and no row that ends in an underscore (C102_reads_partial), and that no value keeps a quote (C102_unquoted). False otherwise: the last row is lost (C102_last), rows are run together (C102_underscore_refuted), a second empty line makes the table None (C102_gaps_refuted); and nothing is imported (C102_import_refuted).

**C103 Load cases are ordered after the cases they start from** (proved)  
*Modelled:* split_cases, sort_loop, sort_load_case, case_dict, depth_of, depths_from, give_depth, sorted_cases, chain_from, case_chain. *Proof:* soundness of the cache by induction over the nested calls; a pass places at least one case; insertion sort.  
*Theorems:* `C103_cases`, `C103_depths`, `C103_returns`, `C103_fails`, `C103_sorted`, `C103_chain`, `C103_order`, `C103_ends`, `C103_passes`.  
*Note:* Depths, the sorted list and the chain (C103_depths, C103_returns, C103_fails, C103_sorted, C103_chain) and the other ordering routine with its termination (C103_order, C103_ends, C103_passes). The importer stops before it reaches these lines.

**C104 A drawing is handed to the element model as drawn** (partial)  
*Modelled:* mesh_nodes, frame_constants, mesh_frames, mesh_rest, mesh, load_calls, weight_calls, apply_load, run_calls, binds, core_signature, accepted. *Proof:* invariant of drawings (restraints, loads, sections and orders) over all calls; induction over joints, frames, restraints, loads and cases; witnesses.  
*Theorems:* `C104_mesh_partial`, `C104_inelastic_refuted`, `C104_core`, `C104_loads`, `C104_weight`, `C104_applies`, `C104_members_refuted`, `C104_run`, `C104_run_refuted`, `C104_alone`.  
*Note:* The calls that meshing and loading make are the right ones for models drawn by single calls with elastic materials (C104_mesh_partial, C104_applies, C104_loads, C104_weight, C104_alone). False otherwise: a material without elastic constants stops it (C104_inelastic_refuted), loads on members are left out (C104_members_refuted), a case is solved under the forces of earlier cases too (C104_run, C104_run_refuted), and the element model accepts none of the calls (C104_core).

**C105 Project files keep what was saved and only that** (partial)  
*Modelled:* mdo_base, furnish, p_create, p_open, p_save, p_close, p_edit, pstep, prun. *Proof:* edits go as grun and touch one file; invariant of all files over all uses; witnesses.  
*Theorems:* `C105_kept`, `C105_lost`, `C105_storage`, `C105_new`, `C105_suffix`, `C105_missing`, `C105_open_refuted`, `C105_over`, `C105_create_refuted`, `C105_created`, `C105_switch_refuted`, `C105_frames_partial`.  
*Note:* Proved for projects that are opened (C105_kept, C105_lost, C105_storage, C105_frames_partial) and for new ones (C105_new). False otherwise: a missing project is not created (C105_open_refuted), creating over an old one keeps it (C105_over, C105_create_refuted), saving a created one raises (C105_created) or writes another (C105_switch_refuted).

**C106 A static answer is the equilibrium of the structure** (proved)  
*Modelled:* final, step, solve_linear_case, assemble_KM, assemble_f, eliminate, decompose. *Proof:* the stored answer solves the reduced equations (C15-C17); expansion of the quadratic potential; symmetry C22 and positivity C23.  
*Theorems:* `C106_balanced`, `C106_minimum`, `C106_unique`, `C106_superpose`, `C106_reciprocal`, `C106_clapeyron`.  
*Note:* For an exact linear solver and a case whose own table of supports is empty or usable (C19, C20).

**C107 A structure tied to a clamped node is held still** (proved)  
*Modelled:* assemble_KM, beam stiffness, restraints. *Proof:* zero energy is zero in every beam (C23); a beam without strain moves rigidly, so rest spreads from a clamped end.  
*Theorems:* `C107_clamped`.  
*Note:* Connection is through beams; shells may be there but are not counted as a connection.

**C108 Reactions balance the loads** (proved)  
*Modelled:* assemble_KM, assemble_f, solve_linear_case. *Proof:* rigid motions do no work on the stiffness (C24); loads have their resultant (C26).  
*Theorems:* `C108_reactions`, `C108_shells`.  
*Note:* With beams alone both resultants vanish (C108_reactions); with proper shells the resultant force, and the moment about every axis that turns no shell in its own plane (C108_shells; C24_shells shows why that limit is needed).

**C109 More support or stiffness never gives more compliance** (proved)  
*Modelled:* assemble_KM, assemble_f, solve_linear_case. *Proof:* minimum of the potential over a smaller space and with a larger energy; the two models are compared by what was told (C78, C79).  
*Theorems:* `C109_supports`, `C109_told`.  
*Note:* Within one model (C109_supports) and between two histories of calls (C109_told).

**C110 Answers depend only on what was told, not on the order** (proved)  
*Modelled:* final, step and everything below it. *Proof:* both models hold what was told (C78, C79); energy and work agree by node name; uniqueness C106.  
*Theorems:* `C110_told`.  
*Note:* For stable structures (C107 gives many).

**C111 Answers move with the structure** (partial)  
*Modelled:* line_csys, quad_csys, tria_csys, beam and shell stiffness, assemble_KM, assemble_f, solve_linear_case. *Proof:* axes of a turned member or shell are the turned axes, or the shell is a membrane and C114 applies; energy and work agree; uniqueness C106; a column, a standing triangle and a level plate as witnesses.  
*Theorems:* `C111_shifted`, `C111_shifted_kernels`, `C111_turned_partial`, `C111_level_refuted`, `C111_triangle_refuted`, `C111_column_refuted`.  
*Note:* Shifted: proved for all structures, shells and all, with the kernels of the code (C111_shifted), and for other kernels that do not see the place (C111_shifted_kernels). Turned about the vertical: proved for beams that are not steep, quadrilaterals that are not level, and level membranes (C111_turned_partial). Missing: nothing but what is refuted. False for steep members (C111_column_refuted): a vertical member takes its axes from global X, which does not turn with it; false for triangles (C111_triangle_refuted): the stored area that scales their stiffness changes with the direction they face; false for level plates (C111_level_refuted): their axes stay and their stiffness has a preferred direction.

**C112 The duplicate check keeps nodes and beams apart and names them** (partial)  
*Modelled:* mstep, mrun, model_add_node, model_add_beam. *Proof:* induction over the calls: the check compares with every earlier node and beam, and the tables of numbers list what is stored.  
*Theorems:* `C112_apart`, `C112_beam`, `C112_name_refuted`.  
*Note:* Nodes and beams are kept apart and a call for a beam names the right one (C112_apart, C112_beam). False for the name: a node recognised as already there is not recorded under the name told (C112_name_refuted). Shells are not in the question: the model class has no duplicate check for them.

**C113 Structures that are held still are always solved, and only those have one answer** (proved)  
*Modelled:* solve_linear_case, assemble_KM, assemble_f, assemble_boundary. *Proof:* a positive definite form on finitely many unknowns is solvable (induction on their number, Schur complement), so the reduced equations have exactly one solution; strainless motions added to an answer are another.  
*Theorems:* `C113_solved`, `C113_clamped`, `C113_unstable`.  
*Note:* For a solver that is exact and answers every system that has exactly one solution; GaussDemo shows that elimination is one.

**C114 Shell stiffness has no preferred direction in its plane** (partial)  
*Modelled:* gq12_BDB, dkt_BDB, dkq_BDB, t9_BDB. *Proof:* strains at every quadrature point of the turned element are the turned strains, and the elastic law is blind to direction; entries of a rectangle and of a right triangle before and after a quarter turn as witnesses.  
*Theorems:* `C114_membrane`, `C114_triangle_plate`, `C114_triangle_membrane_refuted`, `C114_plate_refuted`.  
*Note:* Proved for the membrane of quadrilaterals (C114_membrane) and the plate of triangles (C114_triangle_plate), whatever the quadrature. Missing: nothing but what is refuted: false for the plate of quadrilaterals (C114_plate_refuted) and for the membrane of triangles (C114_triangle_membrane_refuted).

**C115 Cutting a member by a node on it changes nothing elsewhere** (proved)  
*Modelled:* assemble_K, assemble_f, model calls. *Proof:* the cubic curve through the end values of a member has, on either part, the end values of the part; the work of a part on such a curve adds up to that of the member, also for the shared-out loads; then the difference of the two answers, bridged over the cut, has no energy.  
*Theorems:* `C115_same`, `C115_between`, `C115_stable`.  
*Note:* C115_same (displacements at all nodes that were there), C115_between (displacement at the new node when the member carries no load), C115_stable. The cut may be anywhere on the member; members whose parts the code takes for vertical must be taken for vertical whole (the coordinate system of a member changes at a fixed tolerance in plan).

**C116 Modes of a modal case** (proved)  
*Modelled:* solve_eigen, assemble_K, assemble_M, assemble_boundary. *Proof:* the eliminated matrices hold the entries of the free equations, so an eigenpair of them balances on every displacement that the supports permit; orthogonality from the symmetry of both matrices, positivity from the element energies and masses.  
*Theorems:* `C116_modes`, `C116_orthogonal`, `C116_positive`, `C116_combined`.  
*Note:* C116_modes, C116_orthogonal, C116_positive, C116_combined. The eigensolver is an oracle that returns eigenpairs of the matrices it is given; what is proved is that these are the right matrices of the structure and what follows for the modes. (The frequencies that are reported from the eigenvalues are wrong: C49.)

**C117 Stored modes never carry more than there is** (proved)  
*Modelled:* solve_eigen, assemble_K, assemble_M, assemble_f, solve_linear_case. *Proof:* Bessel inequality for the forms of mass and stiffness, in which the modes are orthogonal; the mass matrix is diagonal, so what the supports hold takes part in nothing.  
*Theorems:* `C117_mass`, `C117_static`.  
*Note:* C117_mass (participating masses), C117_static (work of loads), for stored modes with different eigenvalues of a stable structure.

**C118 Asking for more modes than there are** (partial)  
*Modelled:* solve_eigen, Assembly.DOF. *Proof:* the number of modes is cut down to DOF, which counts all equations that the table of the model leaves free; the eigensolver needs fewer.  
*Theorems:* `C118_count_partial`, `C118_all`, `C118_refuted`.  
*Note:* C118_count_partial says how many eigenvalues are answered, C118_all that as many as there are cannot be had. Missing: nothing but what is refuted: C118_refuted. That eigsh raises unless fewer modes than equations are asked for is documented by scipy and is a hypothesis here.

**C119 Static answers of frames are those of beam theory** (proved)  
*Modelled:* assemble_K, assemble_f, assemble_boundary, solve_linear, get_beam_f, Beam. *Proof:* virtual work along a loaded bar (derivatives of products, mean value theorem over each piece between concentrated loads), in which cubic deflections suffice; existence by polynomials of degree five with a kink at each concentrated load; what is out of balance at a node is what is out of balance in the equations.  
*Theorems:* `C119_answers`, `C119_unique`, `C119_actions`.  
*Note:* C119_answers (the stored displacements obey beam theory), C119_unique (no others do), C119_actions (nor are there other end actions). Structures of members; concentrated loads on their members; constants positive.

**C120 The compiled shell kernels are the matrices the scripts derive** (proved)  
*Modelled:* wrapped_code_0.c of T9, DKT, GQ12 and DKQ, autofunc_c in the .pyx files, integrate_K. *Proof:* the C text as syntax trees with the value of each; every divisor that occurs is one of a few, decided by computation, and each of these is a power of the area, a squared side, the Jacobian or 1 - mu^2; then entry by entry by field arithmetic.  
*Theorems:* `C120_t9`, `C120_dkt`, `C120_degenerate_triangle`, `C120_gq12`, `C120_dkq`, `C120_degenerate_quad`, `C120_quad`, `C120_tria`.  
*Note:* C120_t9, C120_dkt, C120_gq12, C120_dkq (each C program gives the derived matrix, entry by entry), C120_degenerate_triangle, C120_degenerate_quad (exactly where it divides by zero), C120_quad, C120_tria (so do the elements built with them). The printed C text is transcribed expression by expression; doubles are reals. TMQ is left out: its printed decimals only approximate the 5/6 of its script.

**C121 More support, more stiffness or less mass never lowers a frequency** (proved)  
*Modelled:* solve_eigen (dynamic.py), assemble_K, assemble_M, boundary elimination. *Proof:* displacements split into the stored modes and a rest without inertia in common with them; a system of fewer homogeneous equations than unknowns has a nonzero solution (induction), which gives a combination of modes of the second structure to compare (Courant-Fischer); energies and masses compared by name of member and node, as in C109.  
*Theorems:* `C121_rayleigh`, `C121_supports`, `C121_told`, `C121_same`.  
*Note:* C121_rayleigh (the stored eigenvalues are minima), C121_supports (more supports), C121_told (stiffer, lighter, more supports, told in another history), C121_same (same structure: same eigenvalues, from any two solvers). The eigensolver is exact (exact_eigen) and answers the lowest pairs (lowest_eigen, what scipy documents for sigma=0); stiffness definite on the permitted displacements.

**C122 Newmark integration invents no energy** (partial)  
*Modelled:* solve_Newmark_beta (dynamic.py:307-336). *Proof:* the relations between successive states that the wrong sign leaves, an exact energy identity for them; the share of a mode obeys a two-term recurrence whose product invariant grows geometrically.  
*Theorems:* `C122_balance`, `C122_partial`, `C122_grows`, `C122_refuted`.  
*Note:* False of the code for beta below 1/2, also for the defaults: C122_grows (every structure, every mode, every step size), C122_refuted (a mass on a spring). C122_balance is the exact energy balance of every step with gamma = 1/2; C122_partial holds for beta of at least 1/2 without damping. Cause: the sign of b3 (C52).

**C123 Direct integration stays bounded after the load has ceased** (partial)  
*Modelled:* solve_direct_time_integration (dynamic.py:173-237). *Proof:* share of a mode in the stored rows: a recurrence over three rows with a positive growth factor, and an energy identity for central differences.  
*Theorems:* `C123_grows`, `C123_refuted`, `C123_scheme`.  
*Note:* False of the code: C123_grows (every structure and pushed mode, small steps), C123_refuted. Cause: the rows are one step late (C51). C123_scheme: the discretised equation itself never gains energy at a step without load.

**C124 Damping never drives the structure** (partial)  
*Modelled:* Rayleigh damping of solve_direct_time_integration (dynamic.py:199-207). *Proof:* closed form of the two coefficients, then the form of the damping matrix on a mode.  
*Theorems:* `C124_partial`, `C124_drives`, `C124_refuted`.  
*Note:* False of the code: C124_drives (every mode of a period below 1/2), C124_refuted (a bar told by calls). C124_partial: true for modes of period 1/2 and more.

**C125 Sessions hold the areas drawn in them and lose nothing by drawing** (partial)  
*Modelled:* add_area, add_area_batch (app/general/object/area.py:22-140). *Proof:* every path of the two functions ends in the handler; invariant over all sessions.  
*Theorems:* `C125_none`, `C125_never`, `C125_refuted`.  
*Note:* False of the code: C125_none (no session ever holds an area), C125_never (drawing one answers False and loses unsaved work), C125_refuted.

**C126 Deleting removes what is named** (partial)  
*Modelled:* delete_joint, delete_frame, delete_area, delete_frame_section, delete_area_section, delete_loadcase. *Proof:* case analysis over the calls.  
*Theorems:* `C126_kept`, `C126_refuted`.  
*Note:* False of the code: C126_kept (no deleting call deletes), C126_refuted. Deletion of materials, whose effect is decided at the next flush, is not modelled.

**C127 No section of a material that is not in the model** (partial)  
*Modelled:* add_frame_section, add_area_section. *Proof:* case analysis; witness.  
*Theorems:* `C127_partial`, `C127_refuted`.  
*Note:* C127_partial: true of frame sections; false of area sections: C127_refuted.

**C128 Masses and stock materials reach the model** (partial)  
*Modelled:* set_joint_mass (object/joint.py:167-178), add_material_quick (property/material.py:49-65). *Proof:* invariant over all sessions that the one known grade is present.  
*Theorems:* `C128_mass`, `C128_quick`, `C128_refuted`.  
*Note:* False of the code: C128_mass and C128_quick (for every session), C128_refuted.

**C129 Listings name every object once** (proved)  
*Modelled:* get_material_names, get_frame_section_names, get_area_section_names, get_loadcase_names, get_joint_names. *Proof:* invariant over all sessions that keys are not repeated.  
*Theorems:* `C129_listings`.  
*Note:* Names of joints are those of uuid, taken to be fresh. get_area_names is not bound to the class.

**C130 Parts that nothing connects do not affect each other** (proved)  
*Modelled:* assemble_K, assemble_f, assemble_boundary, solve_linear, model calls. *Proof:* the work of every element and load on displacements that vanish outside the part is the same in both; the answer of one, taken on the part, is then an answer of the other, and there is one only.  
*Theorems:* `C130_same`, `C130_idle`, `C130_stable_part`, `C130_stable_whole`.  
*Note:* C130_same (two histories that agree about the part and differ in anything else), C130_idle (a part without load), C130_stable_part and C130_stable_whole (the whole is stable exactly if the parts are). For the displacements the solver is exact and the first structure stable.

**C131 The modes of a part that nothing connects** (proved)  
*Modelled:* assemble_K, assemble_M, assemble_boundary, solve_eigen, model calls. *Proof:* strain and kinetic energy of displacements that vanish outside the part are the same in both structures, and do not see the rest; C131_lower then follows from the minimum principle of C121.  
*Theorems:* `C131_modes`, `C131_lower`.  
*Note:* C131_modes (the restriction of every found mode to the part) and C131_lower (the numbers in ascending order, part against whole). The eigensolver is exact and, for C131_lower, returns the lowest pairs.

**C132 End forces read back in the unit in force** (proved)  
*Modelled:* get_result_frame_force, scale. *Proof:* the rows selected are those an inductive relation over the table selects, and the unit table is compared with the meaning of the names of the units.  
*Theorems:* `C132_forces`.  
*Note:* C132_forces, for every table of stored forces and every unit. Nothing in the program fills the table today, so its rows are inputs.

**C133 Periods read back** (partial)  
*Modelled:* get_result_period. *Proof:* induction over the table; witness for the refuted part.  
*Theorems:* `C133_all_partial`, `C133_order_refuted`.  
*Note:* Proved for all periods of a case; refuted for the period of one order, which raises.

**C134 Factors of load combinations** (partial)  
*Modelled:* Combination. *Proof:* induction over the calls; witness for the refuted part.  
*Theorems:* `C134_given_partial`, `C134_constructor_refuted`.  
*Note:* Proved for factors given to add_load; refuted for those given to the constructor, which drops them.

**C135 Computed motions superpose** (proved)  
*Modelled:* solve_Newmark_beta, solve_Wilson_theta, solve_direct_time_integration. *Proof:* one step is linear in state and load because its matrix is regular (energy argument); induction over the steps.  
*Theorems:* `C135_newmark`, `C135_wilson`, `C135_direct`.  
*Note:* C135_newmark, C135_wilson and C135_direct, for all matrices, loads, starts and factors. The linear solver is exact; stiffness and damping are positive semidefinite and every motion has kinetic energy, or the matrix of the step is regular, so that what is solved has one answer.

**C136 Motions do not depend on later loads** (proved)  
*Modelled:* solve_Newmark_beta, solve_Wilson_theta, solve_direct_time_integration. *Proof:* superposition with the factors 1 and 0, which asks only for the loads up to the step.  
*Theorems:* `C136_newmark`, `C136_wilson`, `C136_direct`.  
*Note:* C136_newmark, C136_wilson and C136_direct, under the same hypotheses.

**C137 Sampled load curves** (proved)  
*Modelled:* Curve.sin, Curve.cos, get_max_min_step. *Proof:* the ceiling of n dt / dt is n; induction over the curves of the case.  
*Theorems:* `C137_sin`, `C137_cos`, `C137_steps`.  
*Note:* C137_sin, C137_cos and C137_steps, for all amplitudes, frequencies, phases, steps and numbers of samples. Numbers are reals; in floating point arange may answer one sample more.

**C138 A delayed load gives the delayed motion** (partial)  
*Modelled:* solve_Newmark_beta, solve_Wilson_theta, solve_direct_time_integration. *Proof:* a structure at rest without load stays at rest because the matrix of the step is regular; then induction over the steps.  
*Theorems:* `C138_newmark`, `C138_direct`, `C138_wilson_partial`, `C138_wilson_refuted`.  
*Note:* Proved for Newmark (C138_newmark), direct integration (C138_direct) and, for loads that start from zero, Wilson (C138_wilson_partial). Refuted for Wilson in general.

**C139 Displacements fall as stiffness grows** (proved)  
*Modelled:* assemble_KM, assemble_f, solve_linear_case. *Proof:* the energy of the second structure is c times that of the first for displacements of the same names, the work of the loads is the same, and a stable structure has one answer.  
*Theorems:* `C139_stiffness`.  
*Note:* C139_stiffness, for all pairs of histories of calls without shells (the stiffness of a shell is an external kernel) and any solver.

**C140 Squares of frequencies grow as stiffness** (proved)  
*Modelled:* assemble_KM, assemble_M, solve_eigen. *Proof:* energy c times as large and inertia the same for displacements of the same names; the comparison of C121 with a factor, in both directions.  
*Theorems:* `C140_modes`, `C140_squares`.  
*Note:* C140_modes for every exact eigensolver; C140_squares for eigensolvers that answer the lowest modes. Frames without shells.

**C141 A structure in balance stays in balance** (proved)  
*Modelled:* newmark, wilson. *Proof:* the state itself solves the equations of each step and these have one solution; induction over the steps.  
*Theorems:* `C141_newmark`, `C141_wilson`.  
*Note:* C141_newmark and C141_wilson, for every exact solver, positive step, beta and theta, gamma not negative; mass positive definite, stiffness and damping not negative.

**C142 Uniform acceleration is followed exactly** (partial)  
*Modelled:* newmark. *Proof:* the motion itself solves the equations of each step and these have one solution; induction over the steps; refuted by a mass on a spring.  
*Theorems:* `C142_partial`, `C142_refuted`.  
*Note:* False of the code with the default beta: C142_refuted. C142_partial: exact at every step if beta is one half or the velocity is constant.

## 4. Trusted base

* The kernel of Coq 8.16.1 (`coqc`; the compiled files were also checked with `coqchk`).
* The axioms of section 5, all of the standard library.
* The reading of python, numpy and scipy semantics encoded in the model: insertion-ordered
  dicts, `coo_matrix` summing duplicates, `np.in1d`, slicing, `np.insert`, `np.save` appending
  `.npy`, pickle as snapshot, `sympy` differentiation and lambdification as evaluation.
* Exact real arithmetic instead of IEEE floats.
* What is a parameter: the linear solvers, the eigenvalue solver, the quadrature schemes, and (in the theorems not
  marked with the kernels of the code) the shell kernels.

## 5. Axioms

`Print Assumptions` of every published theorem lists a subset of these four axioms of the standard library:

* D: `ClassicalDedekindReals.sig_forall_dec`
* N: `ClassicalDedekindReals.sig_not_dec`
* E: `FunctionalExtensionality.functional_extensionality_dep`
* C: `Classical_Prop.classic`

DNE (350 theorems): C01_numbering, C01_numbering_assembled, C01_readded_refuted, C02_read_back_partial, C02_mass, C02_restraint_refuted, C03_failed_call, C04_frame, C05_undefined_refuted, C05_recorded_partial, C06_node_names, C06_beam_names, C06_shell_names, C07_beam_immune, C08_case_sees_patterns, C08_recreated_refuted, C09_edits_do_not_reach_results, C09_assemble_is_snapshot, C10_results_kept, C10_saved_interfaces_kept, C10_assembly_kept, C11_always_fails, C11_releases_refuted, C11_never_released, C12_pipe_always_wrong, C13_shell_refuted, C13_shell_partial, C14_never_succeed_refuted, C58_round_trip, C58_results, C67_beams_partial, C67_shells_partial, C67_assembled_partial, C67_refuted, C125_none, C125_never, C125_refuted, C126_kept, C126_refuted, C127_partial, C127_refuted, C55_thickness, C128_mass, C128_quick, C128_refuted, C129_listings, C21_defined, C21_energy, C21_row, C22_symmetric, C22_symmetrise, C23_psd, C24_no_force, C24_balance, C35_iff_partial, C35_coincident, C35_refuted, C36_defined, C36_exact, C37_symmetric, C37_kernel, C39_last_partial, C39_load_partial, C39_two_hinges, C39_refuted, C40_element, C60_agree, C112_apart, C112_beam, C112_name_refuted, C120_dkt, C120_quad, C120_tria, C137_sin, C137_cos, C115_same, C115_between, C115_stable, C138_direct, C94_refuted, C95_frames_partial, C95_refuted, C96_export, C96_round_partial, C96_direction_refuted, C96_unit_refuted, C49_partial, C49_only_one, C49_refuted, C50_modes, C51_partial, C51_refuted, C51_only_six, C64_only_one, C64_refuted, C65_ignored, C65_refuted, C123_grows, C123_refuted, C124_partial, C124_drives, C124_refuted, C121_rayleigh, C121_supports, C121_told, C121_same, C55_coordinates, C55_roundtrip, C55_same_place, C55_tolerance, C55_displacement, C55_reaction, C55_concentrated, C55_distributed_partial, C55_distributed_refuted, C55_joint_loads_lost, C55_joint_load_refuted, C55_material, C55_elastic_refuted, C56_partial, C56_drawn, C56_refuted, C68_partial, C68_refuted, C68_raise_refuted, C69_new_frames_partial, C69_placed_partial, C69_answers, C69_earlier_partial, C69_distance_refuted, C69_earlier_refuted, C70_partial, C70_refuted, C71_circle, C71_pipe_partial, C71_I_refuted, C71_box_refuted, C72_partial, C72_refuted, C73_partial, C73_section_refuted, C73_merge_refuted, C33_rejected, C33_accepted, C33_set_by_3pts_refuted, C33_set_by_3pts_origin, C34_own_axes, C34_fixed_axes, C45_tria_partial, C45_tria_plane_partial, C45_tria_refuted, C45_parallelogram_wrong, C45_parallelogram_refuted, C46_quad, C46_tria_partial, C46_tria_refuted, C80_entries, C80_ends, C80_apart, C80_short_refuted, C81_names, C81_nodes_refuted, C81_beams_refuted, C82_runs, C82_beam, C82_there, C82_there_rectangle, C82_restraint, C82_load, C82_kilonewton_refuted, C82_moment_refuted, C82_digits_refuted, C82_own_material, C82_box, C82_round, C114_membrane, C114_triangle_plate, C114_plate_refuted, C22_code, C23_code, C24_shells_partial, C24_shells_balance_partial, C74_constant_strain, C74_element, C74_rigid_partial, C74_parallelogram_partial, C74_drilling_refuted, C75_slopes, C75_constant_curvature, C75_rigid, C75_element, C76_slopes, C76_rigid, C76_square_partial, C76_rectangle, C76_refuted, C77_quad, C77_tria, C25_order, C26_linear, C26_scale, C26_superpose, C26_defined, C27_resultants, C27_stray_refuted, C38_flip, C38_accepted, C104_mesh_partial, C104_inelastic_refuted, C104_applies, C104_members_refuted, C104_run_refuted, C105_kept, C105_lost, C105_storage, C105_new, C105_suffix, C105_missing, C105_open_refuted, C105_over, C105_create_refuted, C105_created, C105_switch_refuted, C105_frames_partial, C116_modes, C116_orthogonal, C116_positive, C116_combined, C117_mass, C117_static, C118_count_partial, C118_all, C118_refuted, C130_same, C130_idle, C130_stable_part, C130_stable_whole, C131_modes, C131_lower, C31_table_partial, C31_refuted, C40_inertia, C40_symmetric, C40_nonneg, C40_translation, C40_defined, C41_ends_partial, C41_wrong, C41_refuted, C42_block, C42_unknown, C42_all, C42_all_answers, C61_apart, C61_answer, C61_per_coordinate_refuted, C139_stiffness, C140_modes, C140_squares, C43_rectangle, C84_impulse, C84_spectrum_partial, C84_defined, C84_undamped, C84_linear, C84_nonneg, C84_sign_refuted, C84_short_periods, C85_steady, C85_harmonics_partial, C85_defined, C85_refuted, C85_static, C85_cut, C85_cut_refuted, C87_continuous, C87_continuous_generator, C47_quad, C47_tria, C48_translation_partial, C48_rotation_work, C48_rotation_force, C48_rotation_refuted, C48_stretch_no_force, C15_count, C19_equilibrium_partial, C19_refuted, C20_tables_partial, C20_refuted, C57_sorted_partial, C57_refuted, C59_results_stay_partial, C59_refuted, C62_solves, C106_balanced, C106_minimum, C106_unique, C106_superpose, C106_reciprocal, C106_clapeyron, C107_clamped, C108_reactions, C108_shells, C109_supports, C109_told, C110_told, C111_shifted, C111_shifted_kernels, C111_turned_partial, C111_level_refuted, C111_triangle_refuted, C111_column_refuted, C113_solved, C113_clamped, C113_unstable, C135_direct, C136_direct, C88_side_exists, C88_thin, C88_kirchhoff, C88_shear, C88_bending, C88_constant_curvature, C88_rigid, C88_symmetric, C88_nonneg, C89_slopes_partial, C89_rigid_partial, C89_tilt, C89_rigid_refuted, C89_symmetric, C89_nonneg, C78_told, C78_assembled, C79_told, C79_assembled, C79_vector, C97_opens, C97_opens_refuted, C97_picture, C97_beams_partial, C97_beams_refuted, C98_shows, C98_deformed, C98_window, C98_nodes_partial, C98_nodes_refuted, C98_label_refuted, C99_moment_refuted, C99_pattern_refuted.

DNCE (51 theorems): C12_pipe_refuted, C28_work, C29_both, C53_range, C53_symmetric, C53_equal, C53_srss, C53_below_sum, C53_above_srss, C53_positive, C71_pipe_refuted, C82_there_I, C27_line, C90_integral, C90_work_integral, C90_energy, C91_integral, C101_response_partial, C101_fewer, C43_I_partial, C43_I_wrong, C43_I_refuted, C43_rectangle_J_partial, C43_rectangle_J_negative, C43_rectangle_J_refuted, C43_circle, C84_refuted, C86_chosen_partial, C86_error_refuted, C86_curves_partial, C86_same_step, C86_curves_refuted, C87_range, C87_range_generator, C87_jump_refuted, C87_power, C54_agree, C54_tables, C54_table, C54_table_step, C54_continuous, C54_short_refuted, C54_positive, C54_falls, C54_peak, C119_answers, C119_unique, C119_actions, C88_side, C99_opens, C99_arrows.

DE (85 theorems): C29_work, C36_fields, C40_consistent, C40_consistent_refuted, C120_t9, C120_degenerate_triangle, C120_gq12, C120_dkq, C120_degenerate_quad, C138_newmark, C138_wilson_partial, C138_wilson_refuted, C94_refused, C94_batch_refused, C95_defaults, C95_face_refused, C50_ratios, C52_partial, C52_refuted, C63_partial, C63_history_partial, C63_refuted, C66_only_offset, C66_refuted, C16_elimination, C122_balance, C122_partial, C122_grows, C122_refuted, C123_scheme, C114_triangle_membrane_refuted, C77_jacobian, C77_area, C77_derivative_xi, C77_derivative_eta, C104_loads, C104_weight, C104_run, C104_alone, C90_work, C90_agree_partial, C90_refuted, C91_moved, C91_refuted, C92_hermite, C92_hermite2, C92_lagrange, C93_hooke, C93_energy, C93_shear, C93_lamda_partial, C93_lamda_refuted, C32_rows_partial, C101_ordinate, C101_complete_partial, C101_complete_refuted, C101_scale, C132_forces, C44_shear, C44_lamda_partial, C44_lamda_iff_partial, C44_lamda_refuted, C43_box, C43_pipe, C43_solid_pipe, C43_solid_pipe_shear, C43_solid_pipe_refuted, C83_proportional, C83_record, C83_peak, C83_peak_record, C83_refuted, C83_turned, C83_defined, C84_periods, C47_symmetric, C47_psd, C141_newmark, C141_wilson, C135_newmark, C135_wilson, C136_newmark, C136_wilson, C142_partial, C142_refuted.

none (23 theorems): C137_steps, C133_all_partial, C134_given_partial, C102_reads_partial, C102_last, C102_underscore_refuted, C102_gaps_refuted, C102_unquoted, C102_import_refuted, C103_cases, C103_depths, C103_returns, C103_fails, C103_sorted, C103_chain, C103_order, C103_ends, C103_passes, C97_file_partial, C97_file_refuted, C100_basic, C100_load_partial, C100_load_refuted.

D (13 theorems): C17_vector, C18_expansion, C18_too_short, C104_core, C30_distributed, C30_concentrated_refuted, C32_defined, C32_rejected, C32_refuted, C101_classes, C101_never, C133_order_refuted, C134_constructor_refuted.

## 6. Not modelled

* Of the Grasshopper components only `run/assemble.py` and the objects it reads; a name with a quote or
  backslash would change the text of the script and is left out.
* Rendering and the windows of `app/viz` other than what `Viewer` models (`viz_core_model.py`, `viz_core_result_deformation.py` are older copies), logging, timing, `setup.py`, build scripts.
* Of `app/general/io/s2k.py` what follows line 78 other than the order of the load cases (it is never
  reached, and calls a CAE program that is not part of the project); `app/general/model.py` beyond the calls named
  in section 3 (the module cannot be imported at this commit: line 27 names a package
  `Hyperstatic.hyperstatic`), deletion of materials (its effect is decided at the next flush), loads on areas, `set_joint_restraint_batch`, reading and writing of dxf files by ezdxf, meshing of areas, the writing of results by a run other than joint displacements and reactions (`run` raises at its first line; reading end forces and periods back is in `GeneralResult`), area stresses and modal displacements, which nothing reads.
* `app/seismic`: reading and naming of files, plotting and the average curve of `wave_selection.py`; of `spec2wave.py` the interpolation `ST`, the random phases, the fitting loop and the plots.
* The iterative, cholmod and pardiso options of the static solver; the numerics of Lanczos/Ritz
  vectors (what they return is a parameter).
* Of the C files beside the shell kernels, those of T9, DKT, GQ12 and DKQ are transcribed (`CText*.v`) and
  compared with the scripts that printed them (C120). That of TMQ is not: it holds decimals such as
  0.83333333333333337 for the 5/6 of its script, so it agrees only up to rounding. The Cython wrappers are modelled as
  passing their arguments in the order written; compiling them is not modelled.
* Rounding. The tolerances of the code are modelled as they are written.

## 7. Findings

Every `_refuted` theorem is a defect of the code at this commit, with a witness the kernel has checked.
In words, with the place in `/repo/hyperstatic`:

* C01: adding a node under an existing name gives it a number again, so that numbers collide (`core/fe_model/model.py` add_node).
* C02, C05: `set_nodal_restraint` answers True for an undefined node and stores nothing.
* C08: re-creating a pattern name leaves the cases with the old object.
* C11: `set_beam_release` raises for every existing beam.
* C12: `add_beam_section_pipe` stores a rectangle of the two numbers given.
* C13: `add_shell` passes section and corners in another order than documented.
* C14: `solve_modal`, `result_get_nodal_reaction`, `result_get_beam_end_force`, `get_shell_location`, `clear_workspace` fail in every state.
* C19, C20: a case with restraint entries that are all False is eliminated by no table and expanded by the global one.
* C27: loads on names that are neither node nor beam are accepted and dropped.
* C30: `get_beam_concentrated` reads the table of distributed loads.
* C31: `get_nodal_f_dict` loses the contribution of the first pattern.
* C32: time-history curves with one sample are broadcast.
* C33: `set_by_3pts` keeps the old axes.
* C35: steep beams (horizontal offset below the tolerance of the axes) are refused.
* C39: condensing several releases restarts from the uncondensed matrix each time.
* C40: the consistent mass matrix (code behind the return) is neither symmetric nor does it keep the mass.
* C41: beam deformation: values of the ends exchanged or wrongly signed unless the start is numbered first.
* C43: weak-axis inertia of I shapes, torsion constant of flat rectangles, shear area of a solid pipe.
* C44: the Lame constant lacks the factor mu.
* C45, C46: shell areas are wrong (Heron/projection slip), triangles drawn clockwise in the horizontal plane are refused.
* C48: the triangular membrane uses b for both derivatives: rotations meet resistance, a stretch along y meets none.
* C49, C64: eigenvalues are stored as squares of what they should be: frequencies and spectrum periods are right for eigenvalue 1 only.
* C51: direct integration is the central difference at the first step only, and runs only with six free equations.
* C52, C63: sign of b3 in Newmark and Wilson.
* C54: the design spectrum jumps for characteristic periods below 0.1 s.
* C55, C56, C70: millimetres: distributed loads, second end of frames, joint look-up; joint loads are lost in every unit.
* C57: second-order solve inserts zeros in unsorted order.
* C59: results of a node re-added are read at the wrong place.
* C61: merging measures the Euclidean distance, not each coordinate.
* C65: the damping ratio of a time-history case has no effect.
* C66: Newmark states carry the time of the next step.
* C67: re-used beam and shell names share numbers.
* C68, C69, C72, C73: drawing model: failing calls leave changes, batches merge earlier joints, ends are answered in the order of names, frames may refer to nothing.
* C71: pipe torsion constant, I section, box of the drawing model.
* C74: GQ12: the drilling terms of u and v use `xi` where the corner coordinate belongs (`meta/membranes/GQ12/__init__.py:30-31`).
* C76: DKQ: the diagonal of the inverse Jacobian is exchanged (`meta/plates/metaDKQ/__init__.py:105-108`).
* C80, C81: Grasshopper assemble: a beam shorter than the tolerance makes two nodes closer than the tolerance; node components all number from 1 and beam components from 0, so a second component overwrites nodes and beams of the first (`element/node.py:24`, `element/beam.py:25`).
* C82: Grasshopper assemble: `fscale` for kN is 0.001 instead of 1000; moments are scaled by `fscale**2` and not by the length unit; `%f` writes second moments of area below 5e-7 m^4 as 0; `material.a` does not exist on the materials of the repository; the box branch tests for I; circle and pipe call `add_beam_section_I` with too few arguments (`run/assemble.py:31-46, 137-219`).
* C83: records are scaled by the largest value instead of the largest absolute value; a record below zero is turned over (`app/seismic/wave2spec.py:38-40, 53, 97`).
* C84: Duhamel: the decay uses the damped frequency, velocity and acceleration are the displacement times the damped frequency, the largest value stands for the largest absolute value; without damping the ordinates at dt and 2 dt are always 0 (`wave2spec.py:62-83`).
* C85: fft2spec: the response function uses sqrt(1-xi) times the frequency, so that resonance is at another period; samples beyond 4096 are dropped (`wave2spec.py:113-124`).
* C86: wave_selection: ordinates begin at dt but the target at 0, so that each is compared with the target one step earlier; the slice leaves out the last sample; curves are drawn with the step of the last file (`wave_selection.py:30-33, 42-43`).
* C87: the envelope drops from exp(-3.75) to 0 at 40 s (`wave2spec.py:157-160`).
* C89: TMGQ passes the rotations about x and y where the kernel TMQ expects the slopes in x and y, so that a rigid tilt of the element is resisted (`element/quad/TMGQ.py:44-75` against `meta/plates/TMQ/__init__.py:37-61`).
* C90: the symbolic beam script resists the deflection along 2 with I2 and that along 3 with I3, the element the other way round (`meta/beams/beam_eular/__init__.py:79-96` against `element/line/beam.py`).
* C91: the mass matrix of the symbolic beam script has the factor 2/l where l/2 belongs, and I/l^3 where A l belongs (`meta/beams/beam_eular/__init__.py:17,39,53,69`).
* C93: the second Lame constant of the isotropic material lacks the factor mu; its property D takes arguments and cannot be read (`material/isotropy.py:40-43,50-54`).
* C94: areas cannot be drawn: `add_area` and `add_area_batch` call `self._add_joint`, which the model does not have, and `str.join(sorted_key)`, which raises; the exception rolls the session back, so that unsaved joints are lost (`object/area.py:42-93, 124-131`).
* C95: a drawing with faces is answered by False after its lines have been imported and saved (`io/dxf.py:50-61`).
* C96: dxf export writes members from the joint of the lower name to that of the higher, whatever their direction, and in the current unit without recording it (`io/dxf.py:82-86`, `object/frame.py:317-335`).
* C97: the viewers put a relative working directory before the file name twice and so look for a file that `save` did not write; any triangle, or the absence of nodes, makes them raise (`viz_core/__init__.py:24-25, 136-140, 145-155`).
* C98: the deformation viewer draws "case1" only; its node actor is called "nodes" while the one it replaces is "node", so undeformed nodes stay visible; a reset hides the nodes but not the label (`result_deformation.py:101-113, 122, 177`).
* C99: the load viewer draws "pat1" only, raises without it, and gives moments an arrow of length zero (`model_load.py:109-125`).
* C100: the button of the beams in the load viewer switches the shells on instead of the beams (`model_load.py:64-69`).
* C101: the response spectrum solver reads settings that no case class has, overwrites the modal case with the spectrum, calls a missing method and an undefined name; it never answers. Its lines also zero the rows of the modes from `n` on, divide by the zero masses that result, and take the diagonal of the mass matrix for its row sums (`dynamic.py:90-129`).
* C102: `import_s2k` opens `file`, a name that is not defined, so no file is imported; the last line of every table is dropped whether it is empty or a row; a row that ends in an underscore swallows the next; a second empty line turns a table into None; quotes are stripped from values that are then compared with quoted names (`s2k.py:37-78, 118, 134`).
* C103: `sort_load_case` never ends, and `giveDepth` exceeds the recursion limit, when load cases start from one another in a ring (`s2k.py:263-280, 379-395`).
* C104: `mesh` calls `add_node(x,y,z)`, `add_simple_beam(n0,n1,...)`, `set_node_displacement` and `set_node_force`: the first two lack the name that the element model asks for, the others and the attribute `is_assembled` do not exist, so no drawing is ever analysed; loads on members are passed over; forces are appended from case to case (`app/general/model.py:232-336, 340-353`).
* C105: `open` of a missing project calls `_create`, which does not exist; `create` over an old project keeps the old drawing; `save` after `create` copies the files of the project opened before, or raises (`app/general/db.py:48-67`).
* C111: a vertical member takes global X as reference for its axes, so turning a structure with columns about the vertical, loads and all, changes its answers (`core/fe_model/element/line/__init__.py:12-19`).
* C111: a triangle turned by half a turn about the vertical has minus its stiffness: the factor `area` is the sum of the components of the normal, not its length (`core/fe_model/element/tria/__init__.py:24-26`, `DKT.py:28-45`).
* C112: with the duplicate check a node told at a place already taken gives back the number of the old node, but its name is not recorded, so `set_node_restraint` on that name returns False and a beam to it raises KeyError (`core/fe_model/model.py:72-86`).
* C114: the plate of quadrilaterals takes `J11/detJ` and `J22/detJ` where the inverse of the Jacobian has `J22/detJ` and `J11/detJ`, so a rectangular plate is stiffer when it is modelled turned by a quarter (`core/fe_model/meta/plates/metaDKQ/__init__.py:105-108`).
* C114: the membrane of triangles changes with the direction the triangle is laid in (`core/fe_model/meta/membranes/T9/__init__.py`).
* C111: a level plate keeps the global axes when it is turned about the vertical; with the plate stiffness above, its answers do not turn with it.
* C118: a modal case that asks for more modes than there are is cut down to `DOF`, the number of equations left free, but `eigsh` needs fewer than that for a sparse matrix and raises (`core/fe_solver/dynamic.py:61-64`).
* C122: Newmark integration with the default parameters gains energy without bound in every mode of every undamped structure, whatever the step, since `b3` has the wrong sign (`core/fe_solver/dynamic.py:317`).
* C123: direct integration blows up after any push if the step is small, since the equation of a step is evaluated with rows one step late (`core/fe_solver/dynamic.py:230`).
* C124: the damping built into direct integration has a negative stiffness coefficient: it feeds energy into every mode of a period below 0.5 s instead of taking it out (`core/fe_solver/dynamic.py:199-207`).
* C125: areas cannot be drawn: `add_area` calls the missing `_add_joint` and `str.join` on a list, so it always answers False and rolls back unsaved work (`app/general/object/area.py:42-93`, `124`).
* C126: nothing can be deleted: a query is handed to `session.delete`; the handlers of `delete_frame`, `delete_area`, `delete_area_section` and `delete_loadcase` use the undefined `log` and raise (`app/general/object/frame.py:353`, `object/joint.py:329`).
* C127: `add_area_section` does not look the material up (`app/general/property/area_section.py:36`).
* C128: `set_joint_mass` stores nothing and answers True (`app/general/object/joint.py:167-178`); `add_material_quick` knows one grade, which every model already has, and its failure rolls back unsaved work (`app/general/property/material.py:49-65`).
* C133: `get_result_period` with an order calls `.all()` on a list and raises (`app/general/result/result.py:81-82`).
* C134: `Combination` drops the factors its constructor is given (`app/general/post/combination.py:23`).
* C138: `solve_Wilson_theta` takes the load of the first step as it is and extrapolates all others, so that a load that comes one step later moves the structure differently (`core/fe_solver/dynamic.py:359-361`).
* C142: Newmark integration with the default parameters does not follow a uniformly accelerated motion, since `b3` has the wrong sign (`core/fe_solver/dynamic.py:317`).


## 8. Wrong programs

`seeded/LOG.jsonl` has one line per edit tried on a scratch copy of the model: the definition, the edit, the
claim it breaks, the published theorems that no longer follow, and the theorems tightened where
an edit went unnoticed. The failing theorems were found by rebuilding, cutting out every proof that
failed and following dependencies to the published ones.
