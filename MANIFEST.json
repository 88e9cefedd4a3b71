{
 "claims": [
  {
   "property": "C01",
   "status": "proved",
   "theorems": [
    "C01_numbering",
    "C01_numbering_assembled",
    "C01_readded_refuted"
   ],
   "note": "Proved for histories with fresh node names, as the statement says; C01_readded_refuted exhibits the failure when a name is added again."
  },
  {
   "property": "C02",
   "status": "partial",
   "theorems": [
    "C02_read_back_partial",
    "C02_mass",
    "C02_restraint_refuted"
   ],
   "note": "Holds for every setter with a getter except set_nodal_restraint on an undefined node, which answers True and stores nothing (refuted)."
  },
  {
   "property": "C03",
   "status": "proved",
   "theorems": [
    "C03_failed_call"
   ],
   "note": "Every query, assembly and solve after a failed call answers as if the call had not been made."
  },
  {
   "property": "C04",
   "status": "proved",
   "theorems": [
    "C04_frame"
   ],
   "note": ""
  },
  {
   "property": "C05",
   "status": "partial",
   "theorems": [
    "C05_undefined_refuted",
    "C05_recorded_partial"
   ],
   "note": "Refuted: set_nodal_restraint answers True for an undefined node. Partial: recorded exactly when the node exists."
  },
  {
   "property": "C06",
   "status": "proved",
   "theorems": [
    "C06_node_names",
    "C06_beam_names",
    "C06_shell_names"
   ],
   "note": ""
  },
  {
   "property": "C07",
   "status": "proved",
   "theorems": [
    "C07_beam_immune"
   ],
   "note": ""
  },
  {
   "property": "C08",
   "status": "proved",
   "theorems": [
    "C08_case_sees_patterns",
    "C08_recreated_refuted"
   ],
   "note": "Proved for histories that do not re-create a pattern name, as the statement says; C08_recreated_refuted exhibits the failure otherwise."
  },
  {
   "property": "C09",
   "status": "proved",
   "theorems": [
    "C09_edits_do_not_reach_results",
    "C09_assemble_is_snapshot"
   ],
   "note": ""
  },
  {
   "property": "C10",
   "status": "proved",
   "theorems": [
    "C10_results_kept",
    "C10_saved_interfaces_kept",
    "C10_assembly_kept"
   ],
   "note": ""
  },
  {
   "property": "C11",
   "status": "partial",
   "theorems": [
    "C11_always_fails",
    "C11_releases_refuted",
    "C11_never_released"
   ],
   "note": "Refuted: set_beam_release raises for every existing beam, so no beam is ever released through the interface."
  },
  {
   "property": "C12",
   "status": "partial",
   "theorems": [
    "C12_pipe_always_wrong",
    "C12_pipe_refuted"
   ],
   "note": "Refuted for every pipe section: thickness and diameter are swapped on the way to the section."
  },
  {
   "property": "C13",
   "status": "partial",
   "theorems": [
    "C13_shell_refuted",
    "C13_shell_partial"
   ],
   "note": "Refuted: add_shell never answers True for a new four-node shell with a defined section in the way documented. Partial: what is created when it is accepted."
  },
  {
   "property": "C14",
   "status": "partial",
   "theorems": [
    "C14_never_succeed_refuted"
   ],
   "note": "Refuted: none of the five calls succeeds in any state."
  },
  {
   "property": "C15",
   "status": "proved",
   "theorems": [
    "C15_count"
   ],
   "note": "State right after assemble; node names fresh."
  },
  {
   "property": "C16",
   "status": "proved",
   "theorems": [
    "C16_elimination"
   ],
   "note": ""
  },
  {
   "property": "C17",
   "status": "proved",
   "theorems": [
    "C17_vector"
   ],
   "note": ""
  },
  {
   "property": "C18",
   "status": "proved",
   "theorems": [
    "C18_expansion",
    "C18_too_short"
   ],
   "note": ""
  },
  {
   "property": "C19",
   "status": "partial",
   "theorems": [
    "C19_equilibrium_partial",
    "C19_refuted"
   ],
   "note": "Proved if the case table is empty or has a True. Refuted for a case table of only False entries (nothing eliminated, expansion by the global table)."
  },
  {
   "property": "C20",
   "status": "partial",
   "theorems": [
    "C20_tables_partial",
    "C20_refuted"
   ],
   "note": "Both rules proved exactly. They differ, and the property is refuted, for a case table of only False entries."
  },
  {
   "property": "C21",
   "status": "proved",
   "theorems": [
    "C21_defined",
    "C21_energy",
    "C21_row"
   ],
   "note": "Energies are written in closed form from end points and constants, independently of the element matrices."
  },
  {
   "property": "C22",
   "status": "proved",
   "theorems": [
    "C22_symmetric",
    "C22_symmetrise",
    "C22_code"
   ],
   "note": "For the kernels of the code with any quadrature (C22_code), and for any kernels that return symmetric matrices."
  },
  {
   "property": "C23",
   "status": "proved",
   "theorems": [
    "C23_psd",
    "C23_code"
   ],
   "note": "Beams as stated; beyond it models with shells, with the kernels of the code and plane quadrilaterals without re-entrant corner (C23_code)."
  },
  {
   "property": "C24",
   "status": "proved",
   "theorems": [
    "C24_no_force",
    "C24_balance",
    "C24_shells_partial",
    "C24_shells_balance_partial"
   ],
   "note": "Beam models with fresh node names (see C01). Beyond the statement: models with shells and motions that turn no membrane in its own plane (C24_shells_partial)."
  },
  {
   "property": "C25",
   "status": "proved",
   "theorems": [
    "C25_order"
   ],
   "note": "Beam names distinct. Covers stiffness, load vectors and mass matrix."
  },
  {
   "property": "C26",
   "status": "proved",
   "theorems": [
    "C26_linear",
    "C26_scale",
    "C26_superpose",
    "C26_defined"
   ],
   "note": ""
  },
  {
   "property": "C27",
   "status": "partial",
   "theorems": [
    "C27_resultants",
    "C27_line",
    "C27_stray_refuted"
   ],
   "note": "Proved for forces and moments of all loads on nodes and members of the model. Refuted for loads put on names that are neither: they are accepted and dropped."
  },
  {
   "property": "C28",
   "status": "proved",
   "theorems": [
    "C28_work"
   ],
   "note": ""
  },
  {
   "property": "C29",
   "status": "proved",
   "theorems": [
    "C29_work",
    "C29_both"
   ],
   "note": ""
  },
  {
   "property": "C30",
   "status": "partial",
   "theorems": [
    "C30_distributed",
    "C30_concentrated_refuted"
   ],
   "note": "Proved for distributed loads. Refuted for concentrated loads: the query reads the table of distributed loads."
  },
  {
   "property": "C31",
   "status": "partial",
   "theorems": [
    "C31_table_partial",
    "C31_refuted"
   ],
   "note": "The table lacks exactly the contribution of the first pattern that loads the node; equality refuted."
  },
  {
   "property": "C32",
   "status": "partial",
   "theorems": [
    "C32_rows_partial",
    "C32_defined",
    "C32_rejected",
    "C32_refuted"
   ],
   "note": "Proved, with rejection of unequal lengths, except for single-sample curves, which numpy broadcasts (refuted)."
  },
  {
   "property": "C33",
   "status": "partial",
   "theorems": [
    "C33_rejected",
    "C33_accepted",
    "C33_set_by_3pts_refuted",
    "C33_set_by_3pts_origin"
   ],
   "note": "Proved for the constructor. Refuted for set_by_3pts."
  },
  {
   "property": "C34",
   "status": "proved",
   "theorems": [
    "C34_own_axes",
    "C34_fixed_axes"
   ],
   "note": ""
  },
  {
   "property": "C35",
   "status": "partial",
   "theorems": [
    "C35_iff_partial",
    "C35_coincident",
    "C35_refuted"
   ],
   "note": "Coincident ends proved to be refused. Exact acceptance condition proved; refuted that every separated pair is accepted (steep beams are refused)."
  },
  {
   "property": "C36",
   "status": "proved",
   "theorems": [
    "C36_defined",
    "C36_exact",
    "C36_fields"
   ],
   "note": ""
  },
  {
   "property": "C37",
   "status": "proved",
   "theorems": [
    "C37_symmetric",
    "C37_kernel"
   ],
   "note": ""
  },
  {
   "property": "C38",
   "status": "proved",
   "theorems": [
    "C38_flip",
    "C38_accepted"
   ],
   "note": ""
  },
  {
   "property": "C39",
   "status": "partial",
   "theorems": [
    "C39_last_partial",
    "C39_load_partial",
    "C39_two_hinges",
    "C39_refuted"
   ],
   "note": "Proved for the highest released number. Refuted for the others: every step restarts from the uncondensed matrix."
  },
  {
   "property": "C40",
   "status": "proved",
   "theorems": [
    "C40_element",
    "C40_consistent",
    "C40_consistent_refuted",
    "C40_inertia",
    "C40_symmetric",
    "C40_nonneg",
    "C40_translation",
    "C40_defined"
   ],
   "note": "Element and whole model; node names fresh for the translation statement. The unused consistent matrix is refuted separately."
  },
  {
   "property": "C41",
   "status": "partial",
   "theorems": [
    "C41_ends_partial",
    "C41_wrong",
    "C41_refuted"
   ],
   "note": "Exact answers at both ends for every member. Five of six values right at the end and three at the start if the start is numbered first; the property is refuted."
  },
  {
   "property": "C42",
   "status": "proved",
   "theorems": [
    "C42_block",
    "C42_unknown",
    "C42_all",
    "C42_all_answers"
   ],
   "note": ""
  },
  {
   "property": "C43",
   "status": "partial",
   "theorems": [
    "C43_box",
    "C43_I_partial",
    "C43_I_wrong",
    "C43_I_refuted",
    "C43_rectangle",
    "C43_rectangle_J_partial",
    "C43_rectangle_J_negative",
    "C43_rectangle_J_refuted",
    "C43_circle",
    "C43_pipe",
    "C43_solid_pipe",
    "C43_solid_pipe_shear",
    "C43_solid_pipe_refuted"
   ],
   "note": "Box, rectangle, circle and pipe proved. Refuted: weak inertia of every I shape, torsion constant of very flat rectangles, shear area of the solid pipe."
  },
  {
   "property": "C44",
   "status": "partial",
   "theorems": [
    "C44_shear",
    "C44_lamda_partial",
    "C44_lamda_iff_partial",
    "C44_lamda_refuted"
   ],
   "note": "Shear modulus proved. Refuted: the Lame constant lacks the factor mu."
  },
  {
   "property": "C45",
   "status": "partial",
   "theorems": [
    "C45_tria_partial",
    "C45_tria_plane_partial",
    "C45_tria_refuted",
    "C45_parallelogram_wrong",
    "C45_parallelogram_refuted"
   ],
   "note": "Refuted for triangles (wrong unless the normal components add up to one) and for every parallelogram."
  },
  {
   "property": "C46",
   "status": "partial",
   "theorems": [
    "C46_quad",
    "C46_tria_partial",
    "C46_tria_refuted"
   ],
   "note": "Quadrilaterals proved. Triangles: rejected exactly when the normal points downwards (refuted)."
  },
  {
   "property": "C47",
   "status": "proved",
   "theorems": [
    "C47_quad",
    "C47_tria",
    "C47_symmetric",
    "C47_psd"
   ],
   "note": "Symmetry and semidefiniteness under the hypothesis that the compiled kernels (GQ12, DKQ, DKT) have them; the triangle membrane is computed in the model. Through the assembly: C22, C23."
  },
  {
   "property": "C48",
   "status": "partial",
   "theorems": [
    "C48_translation_partial",
    "C48_rotation_work",
    "C48_rotation_force",
    "C48_rotation_refuted",
    "C48_stretch_no_force"
   ],
   "note": "Translations proved. Refuted for every proper triangle under rotation (the shape functions use b for both derivatives); a uniform stretch along local y meets no resistance."
  },
  {
   "property": "C49",
   "status": "partial",
   "theorems": [
    "C49_partial",
    "C49_only_one",
    "C49_refuted"
   ],
   "note": "f*T=1 and what 2*pi*f is proved through the modal solver; agreement with the eigenvalue holds only for eigenvalue 1, otherwise refuted (the stored numbers are squares). eigsh is a parameter."
  },
  {
   "property": "C50",
   "status": "proved",
   "theorems": [
    "C50_ratios",
    "C50_modes"
   ],
   "note": ""
  },
  {
   "property": "C51",
   "status": "partial",
   "theorems": [
    "C51_partial",
    "C51_refuted",
    "C51_only_six"
   ],
   "note": "Exact recurrence of the stored rows proved for all inputs; it is the central difference equation at the first step only, refuted from the second on (rows are taken one step late). Runs only with six free equations. cg is a parameter."
  },
  {
   "property": "C52",
   "status": "partial",
   "theorems": [
    "C52_partial",
    "C52_refuted"
   ],
   "note": "Equation of motion and velocity relation proved for every step; displacement relation refuted (sign of b3), with the exact condition under which it holds. The routine as written names an undefined self; the matrices are parameters."
  },
  {
   "property": "C53",
   "status": "proved",
   "theorems": [
    "C53_range",
    "C53_symmetric",
    "C53_equal",
    "C53_srss",
    "C53_below_sum",
    "C53_above_srss",
    "C53_positive"
   ],
   "note": "Also ordered between SRSS and the absolute sum, and the sum under the root is nonnegative for damping below 1."
  },
  {
   "property": "C54",
   "status": "partial",
   "theorems": [
    "C54_agree",
    "C54_tables",
    "C54_table",
    "C54_table_step",
    "C54_continuous",
    "C54_short_refuted",
    "C54_positive",
    "C54_falls",
    "C54_peak"
   ],
   "note": "Proved: each of the two functions returns the standard four-piece curve at every period in [0,6], the curve is positive, falls on the two falling branches and peaks on the plateau, and the sampled tables agree with the curve. Continuity on [0,6] is proved when the characteristic period is at least 0.1 s and refuted below it."
  },
  {
   "property": "C55",
   "status": "partial",
   "theorems": [
    "C55_thickness",
    "C55_coordinates",
    "C55_roundtrip",
    "C55_same_place",
    "C55_tolerance",
    "C55_displacement",
    "C55_reaction",
    "C55_concentrated",
    "C55_distributed_partial",
    "C55_distributed_refuted",
    "C55_joint_loads_lost",
    "C55_joint_load_refuted",
    "C55_material",
    "C55_elastic_refuted"
   ],
   "note": "Proved for coordinates, tolerance, displacements, reactions, concentrated frame loads and new materials. Refuted for distributed frame loads in millimetres, for joint loads (the numbers are lost in every unit) and for changing a modulus."
  },
  {
   "property": "C56",
   "status": "partial",
   "theorems": [
    "C56_partial",
    "C56_drawn",
    "C56_refuted"
   ],
   "note": "Proved when the unit of length is the metre, and for the first end in any unit; refuted for the second end in millimetres."
  },
  {
   "property": "C57",
   "status": "partial",
   "theorems": [
    "C57_sorted_partial",
    "C57_refuted"
   ],
   "note": "Proved if the table lists its nodes in numbering order. Refuted otherwise: zeros are inserted unsorted."
  },
  {
   "property": "C58",
   "status": "proved",
   "theorems": [
    "C58_round_trip",
    "C58_results"
   ],
   "note": ""
  },
  {
   "property": "C59",
   "status": "partial",
   "theorems": [
    "C59_results_stay_partial",
    "C59_refuted"
   ],
   "note": "Proved while no node is re-added and nothing is loaded. Refuted when a node is added again and the model re-assembled."
  },
  {
   "property": "C60",
   "status": "proved",
   "theorems": [
    "C60_agree"
   ],
   "note": ""
  },
  {
   "property": "C61",
   "status": "partial",
   "theorems": [
    "C61_apart",
    "C61_answer",
    "C61_per_coordinate_refuted"
   ],
   "note": "Proved for the Euclidean distance, which the code measures, for any sequence of additions including repeated names. Refuted for tolerance per coordinate."
  },
  {
   "property": "C62",
   "status": "proved",
   "theorems": [
    "C62_solves"
   ],
   "note": "State right after assemble."
  },
  {
   "property": "C63",
   "status": "partial",
   "theorems": [
    "C63_partial",
    "C63_history_partial",
    "C63_refuted"
   ],
   "note": "Kinematic relations proved; the equation of motion at the extrapolated time is refuted (sign of b3) except for beta=1/2 or zero acceleration."
  },
  {
   "property": "C64",
   "status": "partial",
   "theorems": [
    "C64_only_one",
    "C64_refuted"
   ],
   "note": "Holds only for eigenvalue 1; refuted otherwise (the root is taken twice)."
  },
  {
   "property": "C65",
   "status": "partial",
   "theorems": [
    "C65_ignored",
    "C65_refuted"
   ],
   "note": "Refuted: the ratio has no effect for any input."
  },
  {
   "property": "C66",
   "status": "partial",
   "theorems": [
    "C66_only_offset",
    "C66_refuted"
   ],
   "note": "Holds only if the list of times starts with one step; refuted for times from 0 on."
  },
  {
   "property": "C67",
   "status": "partial",
   "theorems": [
    "C67_beams_partial",
    "C67_shells_partial",
    "C67_assembled_partial",
    "C67_refuted"
   ],
   "note": "Proved for all histories that add beams and shells under new names, for the model and for the assembled copy; refuted when a name is used again (two beams share a number)."
  },
  {
   "property": "C68",
   "status": "partial",
   "theorems": [
    "C68_partial",
    "C68_refuted",
    "C68_raise_refuted"
   ],
   "note": "Proved for calls answering False right after a save. Refuted after unsaved edits and for calls that raise."
  },
  {
   "property": "C69",
   "status": "partial",
   "theorems": [
    "C69_new_frames_partial",
    "C69_placed_partial",
    "C69_answers",
    "C69_earlier_partial",
    "C69_distance_refuted",
    "C69_earlier_refuted"
   ],
   "note": "Proved: the frames of a batch run between two different joints of the model and have the section asked for; if joints and points coincide or are at least the tolerance apart, the frames run between exactly the points given, frames that meet share a joint and earlier frames stay as they are. Refuted in general: the distance to the points given, and that earlier frames keep their joints."
  },
  {
   "property": "C70",
   "status": "partial",
   "theorems": [
    "C70_partial",
    "C70_refuted"
   ],
   "note": "Proved when the unit of length is the metre; refuted in millimetres."
  },
  {
   "property": "C71",
   "status": "partial",
   "theorems": [
    "C71_circle",
    "C71_pipe_partial",
    "C71_pipe_refuted",
    "C71_I_refuted",
    "C71_box_refuted"
   ],
   "note": "Proved for circles and, but for the torsional constant, for pipes. Refuted for the torsional constant of pipes, for the I section every project has, and for boxes (refused)."
  },
  {
   "property": "C72",
   "status": "partial",
   "theorems": [
    "C72_partial",
    "C72_refuted"
   ],
   "note": "Proved: the answer is the two ends in one of the two orders, start first if the name of the start joint sorts first. Refuted in general."
  },
  {
   "property": "C73",
   "status": "partial",
   "theorems": [
    "C73_partial",
    "C73_section_refuted",
    "C73_merge_refuted"
   ],
   "note": "Proved for all sequences of calls without merging, batches and change of section; refuted for merging and for change of section."
  },
  {
   "property": "C74",
   "status": "partial",
   "theorems": [
    "C74_constant_strain",
    "C74_element",
    "C74_rigid_partial",
    "C74_parallelogram_partial",
    "C74_drilling_refuted"
   ],
   "note": "Patch test proved for every convex quadrilateral, kernel and whole element. Rigid motions: proved with zero drilling values, and with the drilling values of the rotation for parallelograms under the Gauss rule; refuted in general."
  },
  {
   "property": "C75",
   "status": "proved",
   "theorems": [
    "C75_slopes",
    "C75_constant_curvature",
    "C75_rigid",
    "C75_element"
   ],
   "note": "The stored area of the triangle is taken as it is (C45)."
  },
  {
   "property": "C76",
   "status": "partial",
   "theorems": [
    "C76_slopes",
    "C76_rigid",
    "C76_square_partial",
    "C76_rectangle",
    "C76_refuted"
   ],
   "note": "Slope field and rigid deflections proved for every convex quadrilateral, constant curvature for squares; refuted for rectangles (the inverse Jacobian has its diagonal exchanged) with the exact factor."
  },
  {
   "property": "C77",
   "status": "proved",
   "theorems": [
    "C77_jacobian",
    "C77_area",
    "C77_quad",
    "C77_tria",
    "C77_derivative_xi",
    "C77_derivative_eta"
   ],
   "note": "Triangles whose normal is not nearly -Z (C46)."
  },
  {
   "property": "C78",
   "status": "proved",
   "theorems": [
    "C78_told",
    "C78_assembled"
   ],
   "note": "A pipe is taken as a rectangle (C12) and the arguments of a shell in the order section, corners (C13); what a shape makes of its dimensions is C43."
  },
  {
   "property": "C79",
   "status": "proved",
   "theorems": [
    "C79_told",
    "C79_assembled",
    "C79_vector"
   ],
   "note": "The load vector statement is for cases that load nodes only and histories that never re-add a node; member loads enter through C26, C27 and C40."
  },
  {
   "property": "C80",
   "status": "partial",
   "theorems": [
    "C80_entries",
    "C80_ends",
    "C80_apart",
    "C80_short_refuted"
   ],
   "note": "The distance between nodes holds when no beam is shorter than the tolerance; false otherwise (C80_short_refuted)."
  },
  {
   "property": "C81",
   "status": "partial",
   "theorems": [
    "C81_names",
    "C81_nodes_refuted",
    "C81_beams_refuted"
   ],
   "note": "Proved for drawings whose own names are distinct per point and do not begin with gen_; false for the names the repository gives when two node components or two beam components are used."
  },
  {
   "property": "C82",
   "status": "partial",
   "theorems": [
    "C82_runs",
    "C82_beam",
    "C82_there",
    "C82_there_rectangle",
    "C82_there_I",
    "C82_restraint",
    "C82_load",
    "C82_kilonewton_refuted",
    "C82_moment_refuted",
    "C82_digits_refuted",
    "C82_own_material",
    "C82_box",
    "C82_round"
   ],
   "note": "Nodes, restraints, loads, beams and general, rectangular and I sections are proved to arrive, to six decimals, for N and metres; false for kN, for moments in millimetres, for small second moments of area, for box, circle and pipe sections, and for every beam whose material comes from the component of the repository (it lacks the coefficient of expansion). Presence of a beam is proved for these sections and a length above twice the tolerance plus two micrometres."
  },
  {
   "property": "C83",
   "status": "partial",
   "theorems": [
    "C83_proportional",
    "C83_record",
    "C83_peak",
    "C83_peak_record",
    "C83_refuted",
    "C83_turned",
    "C83_defined"
   ],
   "note": "The scaled record is proportional to the record, and has the peak asked for if the largest value of the record is its peak; false when the peak is negative (C83_refuted)."
  },
  {
   "property": "C84",
   "status": "partial",
   "theorems": [
    "C84_impulse",
    "C84_spectrum_partial",
    "C84_defined",
    "C84_periods",
    "C84_undamped",
    "C84_refuted",
    "C84_linear",
    "C84_nonneg",
    "C84_sign_refuted",
    "C84_short_periods"
   ],
   "note": "Without damping every displacement is the Duhamel sum asked for; with damping the theorem gives the oscillator that is actually computed, and C84_refuted shows it is another one. The largest value is taken instead of the largest absolute value (C84_sign_refuted)."
  },
  {
   "property": "C85",
   "status": "partial",
   "theorems": [
    "C85_steady",
    "C85_harmonics_partial",
    "C85_defined",
    "C85_refuted",
    "C85_static",
    "C85_cut",
    "C85_cut_refuted"
   ],
   "note": "Exact for sums of harmonics of the sampled length, for the oscillator of frequency sqrt(1-xi) w; false for the frequency w (C85_refuted), and records longer than 4096 samples are cut (C85_cut_refuted). The transform is modelled as the sum that defines it, not as a fast algorithm."
  },
  {
   "property": "C86",
   "status": "partial",
   "theorems": [
    "C86_chosen_partial",
    "C86_error_refuted",
    "C86_curves_partial",
    "C86_same_step",
    "C86_curves_refuted"
   ],
   "note": "The records chosen are those of least error, where the error compares each ordinate with the target one step earlier and leaves out the last sample; false for the error of equal periods (C86_error_refuted). The curve drawn is right if all records have one step, false otherwise."
  },
  {
   "property": "C87",
   "status": "partial",
   "theorems": [
    "C87_range",
    "C87_range_generator",
    "C87_continuous",
    "C87_jump_refuted",
    "C87_continuous_generator",
    "C87_power"
   ],
   "note": "Range and continuity are proved; the envelope of wave2spec jumps at 40 s (C87_jump_refuted). Random phases and the fitting loop are not modelled."
  },
  {
   "property": "C88",
   "status": "proved",
   "theorems": [
    "C88_side",
    "C88_side_exists",
    "C88_thin",
    "C88_kirchhoff",
    "C88_shear",
    "C88_bending",
    "C88_constant_curvature",
    "C88_rigid",
    "C88_symmetric",
    "C88_nonneg"
   ],
   "note": "The matrices of the script are modelled as it derives them symbolically; simplification, code printing and compiling are not. Quadrature points and weights are arbitrary within the hypotheses; gauss2 meets them."
  },
  {
   "property": "C89",
   "status": "partial",
   "theorems": [
    "C89_slopes_partial",
    "C89_rigid_partial",
    "C89_tilt",
    "C89_rigid_refuted",
    "C89_symmetric",
    "C89_nonneg"
   ],
   "note": "The element hands rotations to a kernel that expects slopes: constant curvature and tilts are met if the values are slopes (C89_slopes_partial), translations and in-plane rotations without drilling values always (C89_rigid_partial); false for tilts (C89_rigid_refuted, and C89_tilt for every square)."
  },
  {
   "property": "C90",
   "status": "partial",
   "theorems": [
    "C90_integral",
    "C90_work_integral",
    "C90_energy",
    "C90_work",
    "C90_agree_partial",
    "C90_refuted"
   ],
   "note": "The matrix is the strain energy of the fields (C90_energy) with the two inertias exchanged against the element: equal entry by entry when they are equal (C90_agree_partial), false otherwise (C90_refuted)."
  },
  {
   "property": "C91",
   "status": "partial",
   "theorems": [
    "C91_integral",
    "C91_moved",
    "C91_refuted"
   ],
   "note": "What the matrix is instead is proved for all members (C91_integral, C91_moved); the claim is false (C91_refuted)."
  },
  {
   "property": "C92",
   "status": "proved",
   "theorems": [
    "C92_hermite",
    "C92_hermite2",
    "C92_lagrange"
   ],
   "note": "The functions of the two modules, with their symbols as real arguments."
  },
  {
   "property": "C93",
   "status": "partial",
   "theorems": [
    "C93_hooke",
    "C93_energy",
    "C93_shear",
    "C93_lamda_partial",
    "C93_lamda_refuted"
   ],
   "note": "Proved of the script and of the shear modulus of the material class; the second Lame constant of the class lacks the factor mu (C93_lamda_partial with it, C93_lamda_refuted). The property D of the class cannot be read (it takes arguments) and is not modelled."
  },
  {
   "property": "C94",
   "status": "partial",
   "theorems": [
    "C94_refused",
    "C94_batch_refused",
    "C94_refuted"
   ],
   "note": "False of the code: no area is ever added (C94_refused, C94_batch_refused for all arguments, C94_refuted)."
  },
  {
   "property": "C95",
   "status": "partial",
   "theorems": [
    "C95_frames_partial",
    "C95_defaults",
    "C95_face_refused",
    "C95_refuted"
   ],
   "note": "Proved of lines for all drawings, layers and models whose points coincide or are at least the tolerance apart (C95_frames_partial, C95_defaults); with a face the answer is False though the lines are imported and saved (C95_face_refused, C95_refuted)."
  },
  {
   "property": "C96",
   "status": "partial",
   "theorems": [
    "C96_export",
    "C96_round_partial",
    "C96_direction_refuted",
    "C96_unit_refuted"
   ],
   "note": "What is written is proved for all models (C96_export); there and back up to direction and unit (C96_round_partial); both are lost (C96_direction_refuted, C96_unit_refuted)."
  },
  {
   "property": "C97",
   "status": "partial",
   "theorems": [
    "C97_file_partial",
    "C97_file_refuted",
    "C97_opens",
    "C97_opens_refuted",
    "C97_picture",
    "C97_beams_partial",
    "C97_beams_refuted"
   ],
   "note": "Proved for all models reachable through the interface: which are opened (C97_opens), and of nodes, beams, shells, scale and restraints in the picture (C97_picture). False of relative directories (C97_file_refuted), of triangles (C97_opens_refuted) and of beams one of whose nodes was added a second time (C97_beams_refuted)."
  },
  {
   "property": "C98",
   "status": "partial",
   "theorems": [
    "C98_shows",
    "C98_deformed",
    "C98_window",
    "C98_nodes_partial",
    "C98_nodes_refuted",
    "C98_label_refuted"
   ],
   "note": "The deformed drawing and the buttons of the deformation are proved for all models and all sequences of presses (C98_shows, C98_deformed, C98_window); the nodes follow only under C98_nodes_partial (C98_nodes_refuted, C98_label_refuted). The case is always \"case1\"."
  },
  {
   "property": "C99",
   "status": "partial",
   "theorems": [
    "C99_opens",
    "C99_arrows",
    "C99_moment_refuted",
    "C99_pattern_refuted"
   ],
   "note": "The arrows are proved for all models (C99_opens, C99_arrows). False of moments and of patterns of another name than \"pat1\" (C99_moment_refuted, C99_pattern_refuted)."
  },
  {
   "property": "C100",
   "status": "partial",
   "theorems": [
    "C100_basic",
    "C100_load_partial",
    "C100_load_refuted"
   ],
   "note": "Proved of the basic viewer for all sequences of presses (C100_basic); of the load viewer except for beams (C100_load_partial, C100_load_refuted)."
  },
  {
   "property": "C101",
   "status": "partial",
   "theorems": [
    "C101_classes",
    "C101_never",
    "C101_response_partial",
    "C101_ordinate",
    "C101_complete_partial",
    "C101_complete_refuted",
    "C101_scale",
    "C101_fewer"
   ],
   "note": "The solver never answers (C101_classes, C101_never). For the numbers of its lines: proved for a diagonal mass matrix and all modes (C101_response_partial, C101_complete_partial, C101_scale, C101_ordinate); false of coupled masses (C101_complete_refuted) and of fewer modes than equations (C101_fewer)."
  },
  {
   "property": "C102",
   "status": "partial",
   "theorems": [
    "C102_reads_partial",
    "C102_last",
    "C102_underscore_refuted",
    "C102_gaps_refuted",
    "C102_unquoted",
    "C102_import_refuted"
   ],
   "note": "Proved for files with a line after every table and no row that ends in an underscore (C102_reads_partial), and that no value keeps a quote (C102_unquoted). False otherwise: the last row is lost (C102_last), rows are run together (C102_underscore_refuted), a second empty line makes the table None (C102_gaps_refuted); and nothing is imported (C102_import_refuted)."
  },
  {
   "property": "C103",
   "status": "proved",
   "theorems": [
    "C103_cases",
    "C103_depths",
    "C103_returns",
    "C103_fails",
    "C103_sorted",
    "C103_chain",
    "C103_order",
    "C103_ends",
    "C103_passes"
   ],
   "note": "Depths, the sorted list and the chain (C103_depths, C103_returns, C103_fails, C103_sorted, C103_chain) and the other ordering routine with its termination (C103_order, C103_ends, C103_passes). The importer stops before it reaches these lines."
  },
  {
   "property": "C104",
   "status": "partial",
   "theorems": [
    "C104_mesh_partial",
    "C104_inelastic_refuted",
    "C104_core",
    "C104_loads",
    "C104_weight",
    "C104_applies",
    "C104_members_refuted",
    "C104_run",
    "C104_run_refuted",
    "C104_alone"
   ],
   "note": "The calls that meshing and loading make are the right ones for models drawn by single calls with elastic materials (C104_mesh_partial, C104_applies, C104_loads, C104_weight, C104_alone). False otherwise: a material without elastic constants stops it (C104_inelastic_refuted), loads on members are left out (C104_members_refuted), a case is solved under the forces of earlier cases too (C104_run, C104_run_refuted), and the element model accepts none of the calls (C104_core)."
  },
  {
   "property": "C105",
   "status": "partial",
   "theorems": [
    "C105_kept",
    "C105_lost",
    "C105_storage",
    "C105_new",
    "C105_suffix",
    "C105_missing",
    "C105_open_refuted",
    "C105_over",
    "C105_create_refuted",
    "C105_created",
    "C105_switch_refuted",
    "C105_frames_partial"
   ],
   "note": "Proved for projects that are opened (C105_kept, C105_lost, C105_storage, C105_frames_partial) and for new ones (C105_new). False otherwise: a missing project is not created (C105_open_refuted), creating over an old one keeps it (C105_over, C105_create_refuted), saving a created one raises (C105_created) or writes another (C105_switch_refuted)."
  },
  {
   "property": "C106",
   "status": "proved",
   "theorems": [
    "C106_balanced",
    "C106_minimum",
    "C106_unique",
    "C106_superpose",
    "C106_reciprocal",
    "C106_clapeyron"
   ],
   "note": "For an exact linear solver and a case whose own table of supports is empty or usable (C19, C20)."
  },
  {
   "property": "C107",
   "status": "proved",
   "theorems": [
    "C107_clamped"
   ],
   "note": "Connection is through beams; shells may be there but are not counted as a connection."
  },
  {
   "property": "C108",
   "status": "proved",
   "theorems": [
    "C108_reactions",
    "C108_shells"
   ],
   "note": "With beams alone both resultants vanish (C108_reactions); with proper shells the resultant force, and the moment about every axis that turns no shell in its own plane (C108_shells; C24_shells shows why that limit is needed)."
  },
  {
   "property": "C109",
   "status": "proved",
   "theorems": [
    "C109_supports",
    "C109_told"
   ],
   "note": "Within one model (C109_supports) and between two histories of calls (C109_told)."
  },
  {
   "property": "C110",
   "status": "proved",
   "theorems": [
    "C110_told"
   ],
   "note": "For stable structures (C107 gives many)."
  },
  {
   "property": "C111",
   "status": "partial",
   "theorems": [
    "C111_shifted",
    "C111_shifted_kernels",
    "C111_turned_partial",
    "C111_level_refuted",
    "C111_triangle_refuted",
    "C111_column_refuted"
   ],
   "note": "Shifted: proved for all structures, shells and all, with the kernels of the code (C111_shifted), and for other kernels that do not see the place (C111_shifted_kernels). Turned about the vertical: proved for beams that are not steep, quadrilaterals that are not level, and level membranes (C111_turned_partial). Missing: nothing but what is refuted. False for steep members (C111_column_refuted): a vertical member takes its axes from global X, which does not turn with it; false for triangles (C111_triangle_refuted): the stored area that scales their stiffness changes with the direction they face; false for level plates (C111_level_refuted): their axes stay and their stiffness has a preferred direction."
  },
  {
   "property": "C112",
   "status": "partial",
   "theorems": [
    "C112_apart",
    "C112_beam",
    "C112_name_refuted"
   ],
   "note": "Nodes and beams are kept apart and a call for a beam names the right one (C112_apart, C112_beam). False for the name: a node recognised as already there is not recorded under the name told (C112_name_refuted). Shells are not in the question: the model class has no duplicate check for them."
  },
  {
   "property": "C113",
   "status": "proved",
   "theorems": [
    "C113_solved",
    "C113_clamped",
    "C113_unstable"
   ],
   "note": "For a solver that is exact and answers every system that has exactly one solution; GaussDemo shows that elimination is one."
  },
  {
   "property": "C114",
   "status": "partial",
   "theorems": [
    "C114_membrane",
    "C114_triangle_plate",
    "C114_triangle_membrane_refuted",
    "C114_plate_refuted"
   ],
   "note": "Proved for the membrane of quadrilaterals (C114_membrane) and the plate of triangles (C114_triangle_plate), whatever the quadrature. Missing: nothing but what is refuted: false for the plate of quadrilaterals (C114_plate_refuted) and for the membrane of triangles (C114_triangle_membrane_refuted)."
  },
  {
   "property": "C115",
   "status": "proved",
   "theorems": [
    "C115_same",
    "C115_between",
    "C115_stable"
   ],
   "note": "C115_same (displacements at all nodes that were there), C115_between (displacement at the new node when the member carries no load), C115_stable. The cut may be anywhere on the member; members whose parts the code takes for vertical must be taken for vertical whole (the coordinate system of a member changes at a fixed tolerance in plan)."
  },
  {
   "property": "C116",
   "status": "proved",
   "theorems": [
    "C116_modes",
    "C116_orthogonal",
    "C116_positive",
    "C116_combined"
   ],
   "note": "C116_modes, C116_orthogonal, C116_positive, C116_combined. The eigensolver is an oracle that returns eigenpairs of the matrices it is given; what is proved is that these are the right matrices of the structure and what follows for the modes. (The frequencies that are reported from the eigenvalues are wrong: C49.)"
  },
  {
   "property": "C117",
   "status": "proved",
   "theorems": [
    "C117_mass",
    "C117_static"
   ],
   "note": "C117_mass (participating masses), C117_static (work of loads), for stored modes with different eigenvalues of a stable structure."
  },
  {
   "property": "C118",
   "status": "partial",
   "theorems": [
    "C118_count_partial",
    "C118_all",
    "C118_refuted"
   ],
   "note": "C118_count_partial says how many eigenvalues are answered, C118_all that as many as there are cannot be had. Missing: nothing but what is refuted: C118_refuted. That eigsh raises unless fewer modes than equations are asked for is documented by scipy and is a hypothesis here."
  },
  {
   "property": "C119",
   "status": "proved",
   "theorems": [
    "C119_answers",
    "C119_unique",
    "C119_actions"
   ],
   "note": "C119_answers (the stored displacements obey beam theory), C119_unique (no others do), C119_actions (nor are there other end actions). Structures of members; concentrated loads on their members; constants positive."
  },
  {
   "property": "C120",
   "status": "proved",
   "theorems": [
    "C120_t9",
    "C120_dkt",
    "C120_degenerate_triangle",
    "C120_gq12",
    "C120_dkq",
    "C120_degenerate_quad",
    "C120_quad",
    "C120_tria"
   ],
   "note": "C120_t9, C120_dkt, C120_gq12, C120_dkq (each C program gives the derived matrix, entry by entry), C120_degenerate_triangle, C120_degenerate_quad (exactly where it divides by zero), C120_quad, C120_tria (so do the elements built with them). The printed C text is transcribed expression by expression; doubles are reals. TMQ is left out: its printed decimals only approximate the 5/6 of its script."
  },
  {
   "property": "C121",
   "status": "proved",
   "theorems": [
    "C121_rayleigh",
    "C121_supports",
    "C121_told",
    "C121_same"
   ],
   "note": "C121_rayleigh (the stored eigenvalues are minima), C121_supports (more supports), C121_told (stiffer, lighter, more supports, told in another history), C121_same (same structure: same eigenvalues, from any two solvers). The eigensolver is exact (exact_eigen) and answers the lowest pairs (lowest_eigen, what scipy documents for sigma=0); stiffness definite on the permitted displacements."
  },
  {
   "property": "C122",
   "status": "partial",
   "theorems": [
    "C122_balance",
    "C122_partial",
    "C122_grows",
    "C122_refuted"
   ],
   "note": "False of the code for beta below 1/2, also for the defaults: C122_grows (every structure, every mode, every step size), C122_refuted (a mass on a spring). C122_balance is the exact energy balance of every step with gamma = 1/2; C122_partial holds for beta of at least 1/2 without damping. Cause: the sign of b3 (C52)."
  },
  {
   "property": "C123",
   "status": "partial",
   "theorems": [
    "C123_grows",
    "C123_refuted",
    "C123_scheme"
   ],
   "note": "False of the code: C123_grows (every structure and pushed mode, small steps), C123_refuted. Cause: the rows are one step late (C51). C123_scheme: the discretised equation itself never gains energy at a step without load."
  },
  {
   "property": "C124",
   "status": "partial",
   "theorems": [
    "C124_partial",
    "C124_drives",
    "C124_refuted"
   ],
   "note": "False of the code: C124_drives (every mode of a period below 1/2), C124_refuted (a bar told by calls). C124_partial: true for modes of period 1/2 and more."
  },
  {
   "property": "C125",
   "status": "partial",
   "theorems": [
    "C125_none",
    "C125_never",
    "C125_refuted"
   ],
   "note": "False of the code: C125_none (no session ever holds an area), C125_never (drawing one answers False and loses unsaved work), C125_refuted."
  },
  {
   "property": "C126",
   "status": "partial",
   "theorems": [
    "C126_kept",
    "C126_refuted"
   ],
   "note": "False of the code: C126_kept (no deleting call deletes), C126_refuted. Deletion of materials, whose effect is decided at the next flush, is not modelled."
  },
  {
   "property": "C127",
   "status": "partial",
   "theorems": [
    "C127_partial",
    "C127_refuted"
   ],
   "note": "C127_partial: true of frame sections; false of area sections: C127_refuted."
  },
  {
   "property": "C128",
   "status": "partial",
   "theorems": [
    "C128_mass",
    "C128_quick",
    "C128_refuted"
   ],
   "note": "False of the code: C128_mass and C128_quick (for every session), C128_refuted."
  },
  {
   "property": "C129",
   "status": "proved",
   "theorems": [
    "C129_listings"
   ],
   "note": "Names of joints are those of uuid, taken to be fresh. get_area_names is not bound to the class."
  },
  {
   "property": "C130",
   "status": "proved",
   "theorems": [
    "C130_same",
    "C130_idle",
    "C130_stable_part",
    "C130_stable_whole"
   ],
   "note": "C130_same (two histories that agree about the part and differ in anything else), C130_idle (a part without load), C130_stable_part and C130_stable_whole (the whole is stable exactly if the parts are). For the displacements the solver is exact and the first structure stable."
  },
  {
   "property": "C131",
   "status": "proved",
   "theorems": [
    "C131_modes",
    "C131_lower"
   ],
   "note": "C131_modes (the restriction of every found mode to the part) and C131_lower (the numbers in ascending order, part against whole). The eigensolver is exact and, for C131_lower, returns the lowest pairs."
  },
  {
   "property": "C132",
   "status": "proved",
   "theorems": [
    "C132_forces"
   ],
   "note": "C132_forces, for every table of stored forces and every unit. Nothing in the program fills the table today, so its rows are inputs."
  },
  {
   "property": "C133",
   "status": "partial",
   "theorems": [
    "C133_all_partial",
    "C133_order_refuted"
   ],
   "note": "Proved for all periods of a case; refuted for the period of one order, which raises."
  },
  {
   "property": "C134",
   "status": "partial",
   "theorems": [
    "C134_given_partial",
    "C134_constructor_refuted"
   ],
   "note": "Proved for factors given to add_load; refuted for those given to the constructor, which drops them."
  },
  {
   "property": "C135",
   "status": "proved",
   "theorems": [
    "C135_newmark",
    "C135_wilson",
    "C135_direct"
   ],
   "note": "C135_newmark, C135_wilson and C135_direct, for all matrices, loads, starts and factors. The linear solver is exact; stiffness and damping are positive semidefinite and every motion has kinetic energy, or the matrix of the step is regular, so that what is solved has one answer."
  },
  {
   "property": "C136",
   "status": "proved",
   "theorems": [
    "C136_newmark",
    "C136_wilson",
    "C136_direct"
   ],
   "note": "C136_newmark, C136_wilson and C136_direct, under the same hypotheses."
  },
  {
   "property": "C137",
   "status": "proved",
   "theorems": [
    "C137_sin",
    "C137_cos",
    "C137_steps"
   ],
   "note": "C137_sin, C137_cos and C137_steps, for all amplitudes, frequencies, phases, steps and numbers of samples. Numbers are reals; in floating point arange may answer one sample more."
  },
  {
   "property": "C138",
   "status": "partial",
   "theorems": [
    "C138_newmark",
    "C138_direct",
    "C138_wilson_partial",
    "C138_wilson_refuted"
   ],
   "note": "Proved for Newmark (C138_newmark), direct integration (C138_direct) and, for loads that start from zero, Wilson (C138_wilson_partial). Refuted for Wilson in general."
  },
  {
   "property": "C139",
   "status": "proved",
   "theorems": [
    "C139_stiffness"
   ],
   "note": "C139_stiffness, for all pairs of histories of calls without shells (the stiffness of a shell is an external kernel) and any solver."
  },
  {
   "property": "C140",
   "status": "proved",
   "theorems": [
    "C140_modes",
    "C140_squares"
   ],
   "note": "C140_modes for every exact eigensolver; C140_squares for eigensolvers that answer the lowest modes. Frames without shells."
  },
  {
   "property": "C141",
   "status": "proved",
   "theorems": [
    "C141_newmark",
    "C141_wilson"
   ],
   "note": "C141_newmark and C141_wilson, for every exact solver, positive step, beta and theta, gamma not negative; mass positive definite, stiffness and damping not negative."
  },
  {
   "property": "C142",
   "status": "partial",
   "theorems": [
    "C142_partial",
    "C142_refuted"
   ],
   "note": "False of the code with the default beta: C142_refuted. C142_partial: exact at every step if beta is one half or the velocity is constant."
  }
 ]
}