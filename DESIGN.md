# Formal model of usuaero/MachUp_Py in Rocq (Coq 8.16.1)

Properties: `properties.jsonl`.  Status of each: `MANIFEST.json`.  Model and
proofs: `rocq/theories`.  Wrong-program experiments: `seeded/LOG.jsonl`.

## 1. How the code is modelled

* **Shallow, function by function.**  Every Python function on the path of the
  public API becomes one Gallina function with the same branches in the same
  order.  Each definition carries a comment with file and lines.
* **Exceptions are values.**  `res A = Ok a | Err exn`; functions that mutate
  objects return the new object state *also in the error case*, so state left
  behind by a raising call is visible.
* **Loops.**  `for` loops are folds/maps/structural recursion; `while True`
  loops take fuel and return `Err OutOfFuel` when it is exhausted.  Theorems
  either exclude that value, bound the number of iterations, or prove that it
  is returned for *every* fuel (non-termination).
* **Numbers.**  The whole model is parameterised by a record of operations
  `num_ops T` *without any law* (`+ - * /`, sqrt, trigonometry, comparisons,
  decimal literals).  Consequences:
  - control-flow, state and call-sequence theorems are proved for every `T`,
    hence in particular for IEEE doubles;
  - numerical identities are proved for the instance `R` (Coq's real numbers):
    there the claim is about exact arithmetic, rounding/overflow/NaN are not
    modelled;
  - an instance on fixed-point numbers (integers times 2^-80, file `Fixed.v`) is
    used to *run* the model on the repository's own unit-test planes and compare
    with the numbers in the test-suite to 11 digits or more (file
    `Conformance.v`, generated by `tools/gen_conf_tests.py` and
    `tools/gen_conformance.py`: tests, not proofs; they tie the model to the
    code).  All 19 results of solve that were tried and all grid results
    agree.
* **Arrays.**  numpy arrays are lists; the parallel per-section arrays of
  `LLGrid._data` are one list of records (`section`); that they have equal
  length and are filled block by block is itself property C01.
* **Dictionaries.**  Association lists with Python's semantics (update in
  place, insertion at the end).  `aero_state` is a numeric dictionary plus the
  optional array under `local_state`; `prop_state` a numeric dictionary plus
  the per-propeller sub-dictionaries.
* **Object identity.**  Wings live in a store indexed by creation number, so
  that a wing re-added under an old name, and children still attached to the
  old object, are represented.  The result dictionary of `LLModel` is part of
  its state; what a caller holds after `solve` is a reference to it.
* **External calls** (`np.linalg.solve`, `scipy.integrate.simps`, cubic
  `interp1d`, contents of uninitialised memory, the file system) are fields of
  an environment record passed explicitly; theorems quantify over them and
  state what they assume.  Gaussian elimination is also modelled and proved to
  satisfy the assumption made about `np.linalg.solve`.

## 2. Trusted base

* Coq 8.16.1's kernel (and its VM for `vm_compute` in examples).
* Axioms of the standard library only: those behind `Reals`
  (`ClassicalDedekindReals.sig_forall_dec`, `ClassicalDedekindReals.sig_not_dec`,
  `FunctionalExtensionality.functional_extensionality_dep`) and, where the reals'
  classical lemmas are used, `Classical_Prop.classic`.  `Print Assumptions`
  follows every property theorem; the list is reproduced in section 5.
  Theorems about arbitrary `num_ops` are axiom free.
* The reading of the Python source: nothing was executed; the correspondence
  between code and model rests on the line citations and on `Conformance.v`.

## 3. What is and is not modelled

Modelled: `geometry.py` (Airplane, Wing, WingSegment, Airfoil, ControlSurface,
Prop, file loading after JSON parsing), `llgrid.py`, `llmodel.py` (the
`_machup_compare = True` path, the only reachable one), `propmodel.py` (set-up,
blade-element solution, power/motor search, forces, Stone slipstream),
`propssolver.py`, `MU.py`, `outputstl.py`.

Not modelled: JSON parsing and text formatting of output files (the written
*content* is modelled as a value), printing, matplotlib, `_import_data` and cubic
interpolation beyond an oracle, the Goates slipstream code of `propmodel.py`
(lines 662-1260; nothing in the API calls it), floating-point rounding in the
`R` theorems, Python's recursion limit (infinite recursion is non-termination),
ill-typed arguments (strings where numbers are expected) beyond the cases the
code itself distinguishes.

## 4. Plan per property

Method words: *alg* = identity over R for all lengths, by induction/telescoping
plus ring/field; *inv* = invariant over operation histories; *spec* = agreement
with an independent specification; *ref* = a documented claim is refuted by a
witness and the exact behaviour is proved instead.

| id | what is modelled | how proved |
|----|------------------|------------|
| C01 | get_num_sections, get_wingsegments, slice construction | inv over the segment list: slices tile `[0,n)` |
| C02 | cosine/linear spacing, segment points | alg: cosine monotone on [0,pi]; chain by index shift |
| C03 | chord, area | alg: telescoping sum |
| C04 | unit vectors, int_chord2 | alg: telescoping, spanwise projection = span |
| C05 | unit vectors | alg |
| C06 | both segments of a wing, whole section record | spec: `section_left i = mirror (section_right (n-1-i))` |
| C07 | reference area accumulation | C03 + induction over segments |
| C08 | MachUp.__init__ | case analysis + field |
| C09 | get_position recursion | spec: path sum; translation lemma by induction on chain |
| C10 | store of wings, add_wing histories | inv: parent id < own id; non-termination for every fuel |
| C11 | add_wing | ref: crash state exhibited for all planes |
| C12 | cg_location | inv over call lists; ref |
| C13 | control surface loop | case analysis; zero chord via acos/atan identities |
| C14 | ControlSurface kwargs | spec + ref |
| C15 | airfoil calls, interpolation | inv + alg |
| C16 | file loader | spec: equality with API call sequence |
| C17 | PropsSolver/MachUp constructor | case analysis for every API history |
| C18 | aero state processing | alg |
| C19 | rotation | alg |
| C20 | rotate_aero_forces | alg: orthonormal basis |
| C21 | compute_forces/moments | alg: linearity of sums |
| C22 | matrices, induced velocities, linear solve | spec: lifting-line equation written independently |
| C23 | solve | case analysis |
| C24-C26 | solve as a state machine | inv over histories; ref |
| C27 | result object identity | ref; fresh object lemma |
| C28 | complete wing solve | scaling of matrix/right-hand side, uniqueness of solution |
| C29 | complete wing solve | mirror permutation, uniqueness of solution |
| C30 | complete wing solve | alg |
| C31 | deflection efficiency | case analysis |
| C32 | find_stall_location | spec over lists + C02 |
| C33-C35 | MachUp.solve | case analysis for arbitrary arithmetic |
| C36-C40 | derivative drivers | symbolic execution of the state monad for arbitrary solver |
| C41,C42 | target_lift | fuel-free bound; secant on affine functions |
| C43,C44 | pitch_trim | loop invariant; Newton on affine maps |
| C45 | stall_onset | loop invariant (first index); divergence for every fuel |
| C46 | stall_airspeed | loop invariant; ref |
| C47 | find_aero_center | alg: normal equations |
| C48,C49 | PropsSolver._calc_forces | fold over propellers; ref |
| C50 | set_prop_state, power search | case analysis; loop invariant |
| C51 | orientation, forces | alg |
| C52 | get_CL with uninitialised memory as oracle | ref: value depends on the oracle |
| C53 | correct_ei, the secant iteration for the induced angle | case analysis; loop invariant (last two trials); witness for the equation |
| C54 | calc_pitch | tangent subtraction formula |
| C55 | Stone slipstream | induction over radial stations |
| C56 | get_rot_dir | case analysis; ref |
| C57 | face index arithmetic | bijection by nested sums |
| C58 | quaternions | alg |
| C59 | plotNACA | derivative (`derivable_pt_lim`) ; ref |
| C60 | name handling loop | fold; ref |
| C61 | _compute_forces, _compute_moments, _distributions | list induction, alg |
| C62 | create_from_grid as a whole, create_stl | loops to nested lists; quaternions to rotations |
| C63 | twist of the blades, line 163 | C54; ref |
| C64 | plotNACA end points | alg; ref |
| C65 | _calc_coefficients with several airfoils | insertion sort, interpolation to a broken line |
| C66 | _find_coefficients integrals, _calc_forces; quadrature homogeneous | rows of the distributions to integrands, scaling of the quadrature |
| C67 | _find_Vi, angles of _find_coefficients | trigonometry of the velocity triangle, per node |
| C68 | secant searches for the rate, motor model | loop invariant: last two trials; alg |
| C69 | slipstream at wing points from the blade rows | stations sorted, interpolation; tube recursion (C55) |
| C70 | _get_CL, _get_CD with their masks | per node: which assignments reach the node; trigonometry |
| C71 | distributions with its files; the file opened for appending is never closed | histories of solves and listings; the tables by shape of the grid; contents of the file by cases |
| C72 | the whole chain from wing and propeller geometry to the analyses, run twice | conversion of every intermediate quantity (geometry, grid, influence matrix, circulation, loads; blade stations, operating point, induced angles, coefficients, slipstream); a simulation between the two runs of every analysis; pitch_trim refuted on the two-section wing |
| C73 | LLModel.solve in a given flow with varying controls | the matrix does not depend on the controls; a square system is solvable for all right-hand sides or none (elimination); superposition; forces quadratic in the circulation |
| C74 | LLModel.solve | zero right-hand side and uniqueness of the solution; converse by the lifting-line equation |
| C75 | Geometry, LLGrid, LLModel, PropModel, MU: the whole object | displaced positions cancel in every difference; equality of the two grids, propellers, solves and hosts, then of the programs |
| C76 | LLGrid, LLModel.solve, MU for airplanes with paired wings and upright fins | sections matched with their images (involution with signs); matrix and right-hand side transform by it; uniqueness of the solution |
| C77 | MU.derivatives without propellers | the two states of a central difference in an odd variable are mirror images; states of symmetric flight are their own |
| C78 | Airplane.add_wing with airfoil and control_surface, LLGrid, LLModel, PropModel, MachUp | entries in another order give a renumbered store; the grid is a permutation of blocks; linear systems are permuted, and an exact solver makes their solutions permuted; a simulation relation carries this through every analysis |
| C79 | MachUp with propellers on the other side, solve | propeller states, blade equations and slipstreams commute with the reflection (an equivariance of every step); the wing solve in mirrored local flow is C76's matching |
| C80 | PropsSolver and MachUp.solve with permuted propellers | the propeller runs are independent; sums of forces and slipstream contributions commute |
| C81 | MachUp.solve with twins | C79 for the airplane itself, whose mirrored propellers are a permutation of its own (C80), so forces equal their mirror images |
| C82 | PropModel._calc_spacing, _calc_chord, PropsSolver._distributions | rows of the distributions traced to the stations; a separate table of chord laws |
| C83 | PropsSolver.solve, PropModel._prop_state_from_power, MachUp.solve | relational: two runs related by what they may still differ in, step by step (a simulation of one propeller, then the list, then the wings by C24); the zero rate as an invariant of failing calls |
| C84 | what MachUp.solve, distributions and the drivers read from the airplane at call time (Live.v) | inv: the object and the airplane agree on having wings and propellers; induction over interleavings; create_stl is left out (it re-reads the wing segments), pitch_trim and stall_airspeed too |
| C85 | MachUp.solve and derivatives with twins, from any state reached by returned solves | inv: the remembered state of a propeller and of its image agree in all that does not depend on direction; the direction-dependent part is overwritten by the call; then C79/C80 for the call, and the differences of zeros. Longitudinal derivatives by sideslip, rolling, yawing, aileron and rudder are not claimed zero: the two solves of such a difference start from different remembered induced angles |
| C86 | sessions with a MachUp object, as in C72 | C72 with the unit of length unchanged: the converted object is the object itself. Settings by power or throttle are left out as in C72 (the search stops on an absolute change of the rate) |
| C87 | PropsSolver.solve after any history | induction over propellers; the loop of _find_ei leaves after more than 50 rounds once fewer than three stations move, and raises nothing. Whether it ends for three and more nodes is not claimed (a secant iteration); settings by power or throttle (a second iteration) are left out |

## 5. Axioms per theorem

Generated by `tools/gen_axioms.py` from `Print Assumptions`.

* Closed under the global context (no axioms) (56 theorems): C01_section_bookkeeping, C01_segment_order, C10_position_queries_terminate, C10_histories_without_self_attachment, C10_self_attached_wing_never_answers, C11_add_wing_outcomes, C14_sealed_keyword, C14_is_sealed_ignored, C15_airfoil_call, C15_airfoil_defaults_and_errors, C16_file_loads_iff_well_formed, C16_file_equals_api_calls, C17_no_object_with_propellers, C17_attribute_error, C17_without_propellers, C17_files_have_units, C23_required_keys, C24_history_independence, C25_omitted_control_keeps_deflections, C26_omitted_flow_leaks, C27_wing_results_alias, C27_results_are_fresh_and_stay, C33_solve_adds_the_parts, C33_default_flow, C34_what_solve_changes, C34_solve_keeps_numbers, C35_file_without_flow_raises, C35_file_with_flow, C39_three_groups_in_turn, C39_without_wings, C41_target_lift, C41_default_flow, C42_coinciding_starting_points, C43_pitch_trim, C43_entry_values_do_not_matter, C44_defaults_drop_arguments, C44_no_file, C45_stall_onset, C45_does_not_return_without_stall, C45_without_wings, C45_default_flow, C46_stall_airspeed, C46_without_flow_raises, C46_without_wings, C48_every_propeller_solved, C49_setting_selection, C49_foreign_entries, C57_mesh_complete, C57_create_stl, C60_digits_of_names, C71_like_solve, C71_no_file, C71_text_file, C71_json_file_of_wings, C71_json_file_with_propellers, C83_propellers_remember_angles_and_rate.

* Axioms `sig_forall_dec`, `functional_extensionality_dep` (4 theorems): C15_bounds, C59_slope_ahead, C59_slope_aft, C59_true_slope_refuted.

* Axioms `sig_forall_dec`, `sig_not_dec`, `functional_extensionality_dep` (2 theorems): C31_effective_deflection, C82_chord_unique.

* Axioms `sig_forall_dec`, `sig_not_dec`, `classic`, `functional_extensionality_dep` (148 theorems): C02_sections_partition_segment, C02_tips_distinct, C03_planform_area_exact, C04_chord_squared_integral_exact, C05_frames_orthonormal, C05_frame_orientation, C05_frame_general, C06_left_mirrors_right, C07_reference_area, C08_reference_lengths, C09_wings_sit_on_their_parents, C09_displacing_a_parent, C09_displacing_through_the_api, C11_atomicity_refuted, C12_cg_after_history, C12_cg_never_returns_to_zero, C12_zero_cg_in_file, C13_control_surface, C13_zero_chord_surface, C14_unsealed_efficiency, C14_documented_keyword_refuted, C15_interpolation, C18_freestream, C19_rotation_rates, C19_omitted_rates_are_zero, C20_wing_wind_axes, C20_wing_direction, C20_propeller_wind_axes, C21_total_is_inviscid_plus_viscous, C22_lifting_line_equation, C22_denominators_nonzero, C25_no_control_yet_is_zero, C25_documented_default_refuted, C26_documented_flow_after_head_on_calls, C26_documented_default_refuted, C27_wing_results_stay_refuted, C28_dynamic_pressure_similarity, C29_lateral_symmetry, C30_moment_transfer, C31_deflection_in_solve, C32_stall_report, C34_left_over_local_state, C36_stability_derivatives, C36_of_wings, C36_default_flow, C37_damping_derivatives, C37_of_wings, C37_default_flow, C38_control_derivatives, C38_of_wings, C38_without_flow_raises, C38_default_controls, C39_of_wings, C39_flap_left_over, C39_without_flow_raises, C40_stability_leaves_perturbed_flow, C40_damping_leaves_perturbed_flow, C40_control_leaves_perturbed_controls, C40_flow_without_density, C41_affine_lift_is_solved_exactly, C43_affine_trim_is_exact, C45_stall_check, C47_aero_center, C47_lift_regression, C47_drag_regression, C47_moment_regression, C47_default_flow, C48_propeller_totals, C49_default_setting, C50_operating_point, C50_refused_settings, C50_solved_at_reported_rate, C50_zero_J_refuted, C51_force_and_moment, C51_opposite_rotation, C51_rotation_values, C52_first_use_reads_uninitialised, C52_nonzero_angles_assigned, C53_induced_angles, C53_last_trials, C53_equation_not_enforced_refuted, C54_aerodynamic_pitch, C55_outside_is_freestream, C55_contributions_add, C55_axial_velocity_bounds, C55_development, C55_contraction, C56_rotation_direction, C56_documented_code_refuted, C58_unit_quaternion, C58_euler_rotation, C58_rigid, C58_composition, C59_outline, C60_first_wing_name, C60_first_blade_name, C61_section_loads, C62_drawing, C62_can_be_drawn, C63_drawn_pitch, C63_true_pitch_refuted, C64_trailing_edge_gap, C65_blade_sections, C66_thrust_and_torque, C66_power_and_efficiency, C67_angles, C67_velocity_triangles, C68_rate_from_power, C68_rate_from_throttle, C69_slipstream_profile, C70_section_laws, C70_proportional_lift, C70_lift_at_stall, C70_broadside_drag, C70_symmetric_section_lift, C70_symmetric_section_drag_differs, C71_wing_table, C71_blade_table, C72_session, C72_trim_depends_on_units_refuted, C73_controls_do_not_decide, C73_circulation_superposes, C73_central_differences_are_exact, C74_no_load, C75_place_does_not_matter, C76_mirrored_flight, C76_mirrored_forces, C77_no_lateral_loads, C77_derivatives_decouple, C78_any_order_of_entry, C78_order_does_not_matter, C79_mirrored_propellers, C80_order_of_propellers, C81_twins_balance, C82_blade_planform, C82_linear_ends, C83_later_calls_agree, C83_zero_rate_sticks_refuted, C84_edits_and_requests, C84_other_edits_have_no_effect, C84_cg_location_as_if_rebuilt, C84_extended_too_late_refuted, C85_balance_after_any_flight, C85_derivatives_with_twins, C86_speed_and_density, C86_loads, C87_accepted_settings_never_raise, C87_few_nodes_always_return.

## 6. Findings

Places where the code does not do what its documentation says or what a user would
expect.  Each is a theorem about the model (a witness or a general statement).

| Property | Behaviour | Theorem |
|---|---|---|
| C10 | a wing attached to itself is accepted; position queries then recurse without end | C10_self_attached_wing_never_answers |
| C11 | add_wing with an unknown parent raises KeyError after storing the wing | C11_atomicity_refuted |
| C14 | the documented keyword `is_sealed` is ignored | C14_is_sealed_ignored, C14_documented_keyword_refuted |
| C17 | API-built airplanes with propellers cannot be modelled (no units) | C17_no_object_with_propellers |
| C25 | omitting control_state keeps the old deflections | C25_documented_default_refuted |
| C26 | omitting aero_state keeps parts of the old flow | C26_documented_default_refuted |
| C27 | LLModel.solve returns the same dictionary every time | C27_wing_results_stay_refuted |
| C35 | solve with a file name and no aero_state raises after computing | C35_file_without_flow_raises |
| C37 | damping_derivatives restores yaw_rate from pitch_rate | C37 theorems |
| C39 | derivatives without aero_state raises; without control_state the damping group has a deflected flap | C39 theorems |
| C40 | an exception inside a derivative leaves the caller's state perturbed | C40 theorems |
| C42 | target_lift from -0.2 degrees divides zero by zero | C42_coinciding_starting_points |
| C44 | pitch_trim with a missing dictionary ignores filename and error | C44_defaults_drop_arguments |
| C45 | stall_onset leaves alpha at the stall angle; it may not return | C45_does_not_return_without_stall |
| C46 | stall_airspeed without aero_state always raises | C46_without_flow_raises |
| C50 | J = 0 given with a rotation rate stays 0 | C50_zero_J_refuted |
| C52 | the first blade iteration reads uninitialised memory | C52 theorems |
| C53 | the vortex equation is not enforced when the iteration stops | C53_equation_not_enforced_refuted |
| C56 | rotation code 0 means counter-clockwise, documented as clockwise | C56_documented_code_refuted |
| C59 | camber slope aft of maximum camber is half the derivative | C59_true_slope_refuted |
| C60 | other NACA names reuse the digits of the previous segment | C60_digits_of_names |
| C63 | blades drawn with the zero-lift angle subtracted twice | C63_true_pitch_refuted |
| C64 | outline open at the trailing edge | C64 theorems |
| C70 | drag of a symmetric blade section is not even in the angle of attack | C70 theorems |
| C71 | a propeller-only airplane appends to the old file; unflushed rows follow the JSON object | C71_text_file, C71_json_file_with_propellers |
| C72 | pitch_trim's threshold depends on the units; the default flow is not converted, nor is the tolerance (1e-14) and start (15 rev/s) of the search for the rotation rate at a given power | C72_trim_depends_on_units_refuted |
| C83 | after a refused rotation rate of 0, every brake-power or throttle setting raises ZeroDivisionError until a rate or advance ratio is given | C83_zero_rate_sticks_refuted |
| C84 | adding the first propeller (or wing) to an airplane after its MachUp object was made makes every solve raise AttributeError; other edits except cg_location are silently ignored | C84_extended_too_late_refuted, C84_other_edits_have_no_effect |

## 7. Reading seeded/LOG.jsonl

Each line is one edit of the model in a scratch copy.

* `breaks`: the claims that become false of the edited program.  Where the first
  prediction was wrong, `breaks` holds the corrected one and `note` gives the first.
* `failed`: the property theorems that no longer go through.  The lemma whose proof
  breaks is admitted, the build goes on, and every theorem that rests on an admitted
  lemma is listed.  So `failed` can also hold theorems that are still true of the edited
  program and only share a lemma; `first_broken_lemmas` names the admitted lemmas.
  A listed theorem is therefore no proof that its statement is strong enough: in z06 a
  statement that was too weak was listed all the same, and was found only by reading it.
  Except where a `note` says so, this was not checked theorem by theorem.
* Only the files of property theorems near the edit were rebuilt for most edits of the
  propeller and driver models; theorems elsewhere may fail too and are not listed.
* `note` starting with "inconclusive" marks runs that gave no verdict.
* An id ending in `_2` is a second edit made under a name used before.
