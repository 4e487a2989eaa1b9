{"id": "C01", "title": "Section bookkeeping", "statement": "The grid of an airplane has exactly get_num_sections() sections; the wing segments returned by get_wingsegments() occupy consecutive, disjoint index blocks that tile 0..num_sections-1 in that order (left segment before right segment of each wing, wings in insertion order), and every section carries the name of its segment.", "quantifier": "every list of wings, every side choice, every number of sections per segment", "why_tests_cant": "the number and kind of wings is unbounded; tests build a handful of planes", "anchors": ["machup/geometry.py:Airplane.get_num_sections", "machup/geometry.py:Airplane.get_wingsegments", "machup/llgrid.py:LLGrid._update_data", "machup/llgrid.py:LLGrid._set_name"]}
{"id": "C02", "title": "Sections partition each segment", "statement": "Along every segment the vortex corner points form a chain: the first corner is the segment's left tip, the last one its right tip, each section ends where the next begins, the spanwise parameter is strictly increasing and every control point lies strictly between its two corners on the straight line joining the tips; this holds for cosine and for linear spacing.", "quantifier": "every segment with distinct tips, every number of sections n >= 1, both spacings", "why_tests_cant": "n is unbounded and positions are real-valued", "anchors": ["machup/llgrid.py:LLGrid._calc_control_points", "machup/llgrid.py:LLGrid._cosine_spacing", "machup/llgrid.py:LLGrid._linear_spacing", "machup/llgrid.py:LLGrid._calc_segment_points"]}
{"id": "C03", "title": "Planform area is exact", "statement": "The section areas of a segment sum to semispan*(root_chord+tip_chord)/2 exactly, independently of the number of sections, the spacing rule, dihedral, sweep (below 90 degrees), y-offset, side and where the segment is attached.", "quantifier": "every segment with positive span and cos(sweep)>0, every n >= 1, both spacings", "why_tests_cant": "an identity over unboundedly many sections and real parameters", "anchors": ["machup/llgrid.py:LLGrid._calc_area", "machup/llgrid.py:LLGrid._calc_chord", "machup/llgrid.py:LLGrid._interp_accross_segment"]}
{"id": "C04", "title": "Integral of chord squared is exact", "statement": "The per-section chord-squared integrals used for pitching moments sum over a segment to semispan*(cr^2+cr*ct+ct^2)/3, the exact integral of the squared linear chord over the semispan.", "quantifier": "every segment with positive span, every n >= 1, both spacings, any sweep with cos(sweep) <> 0, dihedral, twist", "why_tests_cant": "an identity over unboundedly many sections and real parameters", "anchors": ["machup/llgrid.py:LLGrid._calc_integral_chord2"]}
{"id": "C05", "title": "Section frames are orthonormal", "statement": "At every section the axial, normal and spanwise unit vectors are mutually orthogonal, of length one, and spanwise = axial x normal, for either side, any dihedral, mount angle and washout; the section is turned about the span by its mount angle minus its washout and tilted by the dihedral, to its own side; with zero angles the vectors are -x, -z and -y.", "quantifier": "every segment, section and angle", "why_tests_cant": "real-valued angles", "anchors": ["machup/llgrid.py:LLGrid._calc_unit_vectors", "machup/llgrid.py:LLGrid._calc_washout"]}
{"id": "C06", "title": "Left and right segments are mirror images", "statement": "For a wing with side 'both' attached at a laterally symmetric point with zero y displacement, section i of the left segment is the mirror image (y -> -y) of section n-1-i of the right segment: control point, swapped corner points, chords, area, twist, frames, airfoil coefficients, control surface coverage and effectiveness; aileron and rudder mixing change sign, elevator and flap mixing do not.", "quantifier": "every wing with side 'both', every n, every airfoil pair and control surface", "why_tests_cant": "unbounded section count, real parameters", "anchors": ["machup/geometry.py:Wing.__init__", "machup/geometry.py:WingSegment.get_position", "machup/geometry.py:ControlSurface.get_control_mix", "machup/llgrid.py:LLGrid._update_data"]}
{"id": "C07", "title": "Reference area", "statement": "The reference area of the airplane is the sum of semispan*(root_chord+tip_chord)/2 over the segments flagged as main and nothing else.", "quantifier": "every list of wings and every choice of is_main flags", "why_tests_cant": "unbounded wing lists", "anchors": ["machup/llgrid.py:LLGrid._calc_area", "machup/llgrid.py:LLGrid.get_reference_area"]}
{"id": "C08", "title": "Default reference lengths", "statement": "If a reference length is missing, MachUp picks lengths whose product is the reference area; when both are missing the lateral one is the largest full span among the segments; given lengths are kept.", "quantifier": "every airplane with wings and every combination of given/missing reference lengths", "why_tests_cant": "quantifies over all planes and all four combinations", "anchors": ["machup/MU.py:MachUp.__init__"]}
{"id": "C09", "title": "Attachment of wings", "statement": "A wing's root sits exactly at (tip of the parent segment on the same side) + position + y-offset, an unattached wing's at the airplane position; consequently displacing a parent displaces all wings attached to it (directly or through other wings) by the same vector and changes nothing else.", "quantifier": "every tree of attached wings of any depth", "why_tests_cant": "the depth of the attachment chain is unbounded", "anchors": ["machup/geometry.py:Airplane.add_wing", "machup/geometry.py:Wing.connect_to", "machup/geometry.py:Wing.get_position", "machup/geometry.py:WingSegment.get_position", "machup/geometry.py:WingSegment._get_parent_position"]}
{"id": "C10", "title": "Position queries terminate exactly when no wing is attached to itself", "statement": "For any history of add_wing calls in which no call names the wing being added as its own parent, get_position of every segment returns (a position or an exception) after visiting at most as many wings as were added; a wing added with itself as parent is accepted but every position query on it recurses without end (finding).", "quantifier": "every history of add_wing calls, including re-adding names and failing calls", "why_tests_cant": "histories are unbounded; non-termination cannot be tested", "anchors": ["machup/geometry.py:Airplane.add_wing", "machup/geometry.py:WingSegment._get_parent_position"]}
{"id": "C11", "title": "add_wing is not atomic", "statement": "add_wing with an unknown parent raises KeyError, but the new wing has already been stored (replacing a wing of the same name) and is positioned relative to the origin; every other failing add_wing (bad side) leaves the airplane unchanged (finding).", "quantifier": "every airplane and every failing add_wing call", "why_tests_cant": "crash point inside a call, all prior states", "anchors": ["machup/geometry.py:Airplane.add_wing", "machup/geometry.py:Wing.__init__"]}
{"id": "C12", "title": "Centre of gravity updates", "statement": "cg_location sets exactly the coordinates given with non-zero values and leaves the others; consequently no sequence of cg_location calls can bring a coordinate back to zero once it is non-zero (finding), and a plane file with zero CG coordinates gives the origin.", "quantifier": "every sequence of cg_location calls", "why_tests_cant": "unbounded call sequences", "anchors": ["machup/geometry.py:Airplane.cg_location", "machup/geometry.py:Airplane.get_cg_location"]}
{"id": "C13", "title": "Control surface coverage and mixing", "statement": "A section gets control mixing, flap effectiveness and a moment slope exactly when its control point lies strictly inside the control surface's span; inside, the mixing is the surface's mix (aileron and rudder negated on the left side, absent controls 0), outside everything is zero; a surface of zero chord has zero effectiveness.", "quantifier": "every segment side, surface span, chord distribution and mix, every section", "why_tests_cant": "real-valued spans and chords, unbounded sections", "anchors": ["machup/llgrid.py:LLGrid._calc_control_surfaces", "machup/geometry.py:WingSegment.get_control_surface_span", "machup/geometry.py:WingSegment.get_control_surface_chord", "machup/geometry.py:WingSegment.get_control_mix", "machup/geometry.py:ControlSurface"]}
{"id": "C14", "title": "Unsealed hinges and the is_sealed keyword", "statement": "An unsealed surface has exactly 0.8 times the hinge-efficiency of the same surface sealed; programmatically the flag is only honoured under the keyword 'sealed': the documented keyword 'is_sealed' is silently ignored and the surface stays sealed (finding).", "quantifier": "every set of control surface keyword arguments", "why_tests_cant": "all keyword dictionaries", "anchors": ["machup/geometry.py:Wing.control_surface", "machup/geometry.py:ControlSurface.__init__", "machup/llgrid.py:LLGrid._calc_control_surfaces"]}
{"id": "C15", "title": "Airfoil assignment and interpolation", "statement": "wing.airfoil(end) sets the root and/or tip airfoil of both segments and any other end value changes nothing; section coefficients interpolate linearly from root to tip, hence stay between the root and tip values and equal the common value when both ends carry the same airfoil; an airfoil with no properties gets the documented defaults and one with a missing property raises KeyError.", "quantifier": "every sequence of airfoil calls, every section", "why_tests_cant": "unbounded call sequences and sections", "anchors": ["machup/geometry.py:Wing.airfoil", "machup/geometry.py:WingSegment.airfoil", "machup/geometry.py:Airfoil.__init__", "machup/llgrid.py:LLGrid._calc_coefficients"]}
{"id": "C16", "title": "Building from a file equals building through the API", "statement": "Loading an airplane description succeeds exactly when all required keys are present, the units are recognised, sides are valid and every wing's parent ID belongs to a wing listed before it (or to itself); the result is the airplane obtained by the corresponding sequence of cg_location/set_reference_lengths/add_wing/airfoil/control_surface calls. Only the first two airfoils of a wing are used; a missing 'is_main' is an error.", "quantifier": "every parsed description, any number of wings", "why_tests_cant": "unbounded descriptions", "anchors": ["machup/geometry.py:Airplane._buildfrominputfile", "machup/geometry.py:Airplane._map_wing_connections", "machup/geometry.py:Airplane._add_wing_from_inputfile", "machup/geometry.py:Airplane._check_units"]}
{"id": "C17", "title": "Programmatic airplanes with propellers cannot be modelled", "statement": "An airplane built only through the API has no units, so constructing MachUp for it raises AttributeError as soon as it has a propeller; airplanes loaded from a file, and API-built airplanes without propellers, do not fail for this reason (finding).", "quantifier": "every API-built airplane", "why_tests_cant": "all construction histories", "anchors": ["machup/geometry.py:Airplane.__init__", "machup/geometry.py:Airplane.get_units", "machup/propssolver.py:PropsSolver.__init__", "machup/MU.py:MachUp.__init__"]}
{"id": "C18", "title": "Freestream from airspeed and angles", "statement": "With V_mag, alpha and beta given, the local velocity at every section has magnitude V_mag, points so that tan(alpha)=vz/vx and tan(beta)=vy/vx, and the freestream direction is the unit vector along it; at zero angles it is (-V,0,0).", "quantifier": "every V_mag>0 and angles with 1-sin^2(alpha)sin^2(beta) > 0", "why_tests_cant": "real-valued angles", "anchors": ["machup/llmodel.py:LLModel._process_aero_state", "machup/propmodel.py:PropModel._set_aero_state", "machup/propssolver.py:PropsSolver._initialize_velocity_field"]}
{"id": "C19", "title": "Rotation rates", "statement": "With body rates w=(roll,pitch,yaw) the velocity at a section at r is the freestream minus w x (r - r_cg), the freestream direction is unaffected, and omitting all rates is the same as passing zeros.", "quantifier": "every rate vector, section and CG", "why_tests_cant": "real-valued", "anchors": ["machup/llmodel.py:LLModel._superimpose_rotation"]}
{"id": "C20", "title": "Wind-axis decomposition", "statement": "Lift, drag and side force are the components of the body-axis force in an orthonormal frame whose drag axis is the freestream direction and whose lift axis is perpendicular to y: FL^2+FD^2+FS^2 = FX^2+FY^2+FZ^2, the body force is recovered from (FL,FD,FS), and decomposition is linear; for wings and propellers alike.", "quantifier": "every force and every freestream direction not parallel to the y axis", "why_tests_cant": "real-valued vectors", "anchors": ["machup/llmodel.py:LLModel._rotate_aero_forces", "machup/propssolver.py:PropsSolver._rotate_aero_forces"]}
{"id": "C21", "title": "Total = inviscid + viscous", "statement": "Every total force and moment component reported by a wing solve is the sum of the inviscid and viscous ones, the force components are sums over sections of the per-section forces, FL/FD/FS of the total are the wind components of the total body force, and L/D = FL/FD.", "quantifier": "every plane, flow and control state for which the solve returns", "why_tests_cant": "unbounded sections", "anchors": ["machup/llmodel.py:LLModel._compute_forces", "machup/llmodel.py:LLModel._compute_moments"]}
{"id": "C22", "title": "The circulation satisfies the lifting-line equation", "statement": "The vortex strengths found by a solve satisfy, at every section, the linearised lifting-line equation: 2|v x dl| g_i = V^2 dS cl(v) + V dS CLa (n . velocity induced by all the vortices), where the induced velocity is Biot-Savart over each horseshoe's bound segment and two semi-infinite trailing legs along the freestream.", "quantifier": "every plane and state for which the linear solver returns", "why_tests_cant": "unbounded system size", "anchors": ["machup/llmodel.py:LLModel._setup_linear_matrices", "machup/llmodel.py:LLModel._calc_induced_velocities", "machup/llmodel.py:LLModel._pre_calculations", "machup/llmodel.py:LLModel._solve_linear_system"]}
{"id": "C23", "title": "Required state keys", "statement": "A wing solve with a non-empty aero_state raises RuntimeError when V_mag or rho is missing and no local_state is given, and any stype other than 'linear' raises RuntimeError; with the keys present neither error occurs.", "quantifier": "every aero_state, control_state and stype", "why_tests_cant": "all dictionaries", "anchors": ["machup/llmodel.py:LLModel._process_aero_state", "machup/llmodel.py:LLModel.solve"]}
{"id": "C24", "title": "History independence with explicit states", "statement": "The result of a solve with non-empty aero_state and control_state depends on those arguments and the plane only, not on any earlier calls on the same model, whether those succeeded or raised.", "quantifier": "every history of earlier solve calls", "why_tests_cant": "unbounded histories", "anchors": ["machup/llmodel.py:LLModel.solve", "machup/llmodel.py:LLModel._process_aero_state", "machup/llmodel.py:LLModel._process_control_state"]}
{"id": "C25", "title": "Omitted control_state keeps old deflections", "statement": "Omitting control_state does not mean zero deflection: the deflections of the most recent call that supplied a non-empty control_state (even one that raised afterwards) stay in force; only if there was none is the result that of zero deflections (finding, contradicts the documentation).", "quantifier": "every history of earlier solve calls", "why_tests_cant": "unbounded histories", "anchors": ["machup/llmodel.py:LLModel._process_control_state", "machup/llmodel.py:LLModel.solve", "machup/MU.py:MachUp.solve"]}
{"id": "C26", "title": "Omitted aero_state keeps old flow components", "statement": "Calling LLModel.solve without aero_state gives the documented 10-unit head-on flow with unit density only on a model whose earlier calls left lateral/vertical velocity zero and density one; in general y/z velocities, rates and density of the previous call leak in (finding).", "quantifier": "every history of earlier solve calls", "why_tests_cant": "unbounded histories", "anchors": ["machup/llmodel.py:LLModel._process_aero_state"]}
{"id": "C27", "title": "Returned result objects", "statement": "LLModel.solve returns the same dictionary object every time, so results of an earlier call change when the model is solved again (finding); MachUp.solve returns a fresh dictionary that later calls never modify.", "quantifier": "every sequence of solves", "why_tests_cant": "aliasing over unbounded histories", "anchors": ["machup/llmodel.py:LLModel.solve", "machup/MU.py:MachUp.solve"]}
{"id": "C28", "title": "Dynamic-pressure similarity", "statement": "Multiplying the density by m multiplies every force and moment by m; multiplying airspeed and body rates by k>0 multiplies them by k^2; L/D is unchanged.", "quantifier": "every plane, state, m>0, k>0 for which the linear system has a unique solution", "why_tests_cant": "real parameters, unbounded system size", "anchors": ["machup/llmodel.py:LLModel.solve"]}
{"id": "C29", "title": "Lateral symmetry", "statement": "A laterally symmetric airplane in symmetric flow (no sideslip, roll rate, yaw rate, aileron or rudder) produces no side force, rolling moment or yawing moment, and mirrored sections carry equal circulation.", "quantifier": "every airplane made of mirrored wings with CG on the symmetry plane, any number of sections", "why_tests_cant": "unbounded system size", "anchors": ["machup/llmodel.py:LLModel.solve", "machup/llgrid.py:LLGrid"]}
{"id": "C30", "title": "Moment transfer", "statement": "Moving the centre of gravity by d changes the moment vector by -d x F and no force, when no rotation rates are given.", "quantifier": "every plane, state and displacement", "why_tests_cant": "real-valued", "anchors": ["machup/llmodel.py:LLModel._compute_moments"]}
{"id": "C31", "title": "Deflection efficiency", "statement": "The effective deflection is an odd function of the commanded one; the efficiency is 1 up to 11 degrees, then falls linearly; parasite drag grows by 0.002 per degree of deflection regardless of sign.", "quantifier": "every commanded deflection", "why_tests_cant": "real-valued, boundary cases", "anchors": ["machup/llmodel.py:LLModel._compute_deflection_efficiency", "machup/llmodel.py:LLModel._effective_flap_deflection", "machup/llmodel.py:LLModel._local_parasitic_drag_coefficient"]}
{"id": "C32", "title": "Stall location report", "statement": "A stall is reported iff some section's lift coefficient exceeds its maximum; the report names the segment of the first such section (in grid order) and its distance from the root as a fraction strictly between 0 and 1.", "quantifier": "every plane and lift distribution", "why_tests_cant": "unbounded sections", "anchors": ["machup/llmodel.py:LLModel._find_stall_location"]}
{"id": "C33", "title": "Combined solve adds propellers and wings", "statement": "Every component of MachUp.solve's result is the sum of the propeller total and the wing total, a missing part counting zero; omitting the aero_state (or passing an empty one) is the same as V_mag 10, rho 0.0023769, alpha 0.", "quantifier": "every model, state and history", "why_tests_cant": "all models and histories", "anchors": ["machup/MU.py:MachUp.solve"]}
{"id": "C34", "title": "What solve does to the caller's state", "statement": "MachUp.solve never changes control_state or prop_state and changes aero_state only by setting 'local_state', and that only for airplanes with both wings and propellers; re-using such a dictionary with a propeller-less model makes it ignore V_mag and rho (finding).", "quantifier": "every state and model", "why_tests_cant": "mutation of arguments over all calls", "anchors": ["machup/MU.py:MachUp.solve", "machup/llmodel.py:LLModel._process_aero_state"]}
{"id": "C35", "title": "solve(filename) without aero_state", "statement": "MachUp.solve with a filename and no aero_state always raises after computing and writes nothing; with an aero_state it writes exactly one file holding wing, propeller and total results (finding).", "quantifier": "every model and state", "why_tests_cant": "all models", "anchors": ["machup/MU.py:MachUp.solve"]}
{"id": "C36", "title": "Stability derivatives", "statement": "Each stability derivative is the central difference over +-0.5 degrees of the corresponding force divided by dynamic pressure x area (moments also by the reference length); on return alpha and beta hold their entry values (0 if absent) and every other key is unchanged.", "quantifier": "every model, state and solver behaviour", "why_tests_cant": "quantifies over all solver outcomes", "anchors": ["machup/MU.py:MachUp.stability_derivatives"]}
{"id": "C37", "title": "Damping derivatives restore the wrong yaw rate", "statement": "Each damping derivative is the central difference over +-0.005 of the non-dimensional rate; on return roll and pitch rate hold their entry values but yaw_rate holds the entry value of pitch_rate, so the caller's yaw rate is lost whenever the two differ (finding).", "quantifier": "every model and state", "why_tests_cant": "all states", "anchors": ["machup/MU.py:MachUp.damping_derivatives"]}
{"id": "C38", "title": "Control derivatives", "statement": "Each control derivative is the central difference over +-0.25 degrees; on return aileron, elevator, rudder and flap hold their entry values (0 if absent); without aero_state the call always raises (finding).", "quantifier": "every model and state", "why_tests_cant": "all states", "anchors": ["machup/MU.py:MachUp.control_derivatives"]}
{"id": "C39", "title": "derivatives()", "statement": "derivatives returns the three groups plus static_margin = -Cm_a/CL_a; it always raises when aero_state is omitted, and when control_state is omitted its damping group is computed with the flap deflected by +0.25 degrees left over from the control group (finding); without wings it raises or, given a filename, writes {'error': 'underivable'}.", "quantifier": "every model and state", "why_tests_cant": "leak across internal calls", "anchors": ["machup/MU.py:MachUp.derivatives", "machup/MU.py:MachUp.control_derivatives", "machup/MU.py:MachUp.damping_derivatives"]}
{"id": "C40", "title": "Derivative helpers are not exception safe", "statement": "If a solve inside a derivative computation raises, the caller's state is left at the perturbed value (finding); e.g. an aero_state without rho passed to stability_derivatives comes back with alpha lowered by 0.5 degrees.", "quantifier": "every failing solve position", "why_tests_cant": "every crash point", "anchors": ["machup/MU.py:MachUp.stability_derivatives", "machup/MU.py:MachUp.damping_derivatives", "machup/MU.py:MachUp.control_derivatives"]}
{"id": "C41", "title": "target_lift", "statement": "target_lift performs at most 23 solves, never changes the caller's aero_state, raises KeyError without alpha, and when it returns an angle the last two secant iterates differ by less than error; if lift is an affine function of alpha with non-zero slope the returned angle gives exactly the target lift; otherwise RuntimeError (or an 'unliftable' record when a filename is given).", "quantifier": "every model, target, state, tolerance", "why_tests_cant": "all solver behaviours", "anchors": ["machup/MU.py:MachUp.target_lift"]}
{"id": "C42", "title": "target_lift started at -0.2 degrees", "statement": "If the entry angle x equals 1.5 x + 0.1 as computed (in exact arithmetic x = -0.2, in doubles x = -0.20000000000000004 and -0.19999999999999998), the two secant starting points coincide, the first step divides zero by zero, and target_lift never returns an angle, whatever the airplane without propellers (finding).", "quantifier": "every model and target", "why_tests_cant": "all solver behaviours", "anchors": ["machup/MU.py:MachUp.target_lift"]}
{"id": "C43", "title": "pitch_trim", "statement": "When pitch_trim returns a trim state, a solve at exactly that alpha and elevator gave lift and pitching moment within error of the targets, the caller's dictionaries hold those values, and at most 101 Newton steps were made; the entry values of alpha and elevator do not matter; if lift and moment are affine in (alpha, elevator) with invertible slope the trim is reached after one step.", "quantifier": "every model, targets, states, tolerance", "why_tests_cant": "all solver behaviours", "anchors": ["machup/MU.py:MachUp.pitch_trim", "machup/MU.py:MachUp._lift_slope", "machup/MU.py:MachUp._moment_slope"]}
{"id": "C44", "title": "pitch_trim defaults drop arguments", "statement": "When aero_state or control_state is omitted or empty, pitch_trim ignores filename and error (finding); when it gives up with a filename it writes the error record and returns None.", "quantifier": "every call", "why_tests_cant": "all calls", "anchors": ["machup/MU.py:MachUp.pitch_trim"]}
{"id": "C45", "title": "stall_onset", "statement": "stall_onset returns the first angle in 0, 0.1, 0.2, ... at which some section exceeds its maximum lift coefficient, with the lift and location at that angle; the caller's alpha is left at that angle (finding); it never returns if no angle stalls (finding); without wings it raises or writes {'error':'unstallable'}.", "quantifier": "every model and state", "why_tests_cant": "unbounded search", "anchors": ["machup/MU.py:MachUp.stall_onset", "machup/llmodel.py:LLModel._find_stall_location"]}
{"id": "C46", "title": "stall_airspeed", "statement": "stall_airspeed leaves the caller's aero_state unchanged, stops only when two consecutive airspeed iterates differ by less than error, and always raises when aero_state is omitted (finding).", "quantifier": "every model and state", "why_tests_cant": "all solver behaviours", "anchors": ["machup/MU.py:MachUp.stall_airspeed"]}
{"id": "C47", "title": "find_aero_center", "statement": "find_aero_center leaves the caller's alpha at 9.95 degrees whatever it was (finding); its drag regression recovers CD0, CD1, CD2 exactly whenever the computed drag is exactly CD0+CD1*CL+CD2*CL^2 at every angle, its moment regression likewise.", "quantifier": "every model, state, number of samples", "why_tests_cant": "all solver behaviours", "anchors": ["machup/MU.py:MachUp.find_aero_center"]}
{"id": "C48", "title": "Propeller totals", "statement": "The propeller total force and moment are the sums over all propellers, but the reported 'Thrust' and 'Torque' are those of the last propeller only (finding).", "quantifier": "every number of propellers", "why_tests_cant": "unbounded list", "anchors": ["machup/propssolver.py:PropsSolver._calc_forces"]}
{"id": "C49", "title": "Propeller state selection", "statement": "A propeller uses the entry of prop_state under its own name when there is one and the whole prop_state otherwise; no prop_state means J=0.5.", "quantifier": "every prop_state and propeller list", "why_tests_cant": "all dictionaries", "anchors": ["machup/propssolver.py:PropsSolver._calc_forces", "machup/propmodel.py:PropModel._set_prop_state"]}
{"id": "C50", "title": "Operating point consistency", "statement": "After a propeller state is set from J, rotation rate, or motor/power search with airspeed and rotation non-zero, J = V/(n d), unless J=0 was given together with a rotation rate (finding: then J stays 0 although V is not 0); zero airspeed or J=0 without a rotation rate raises RuntimeError, as does a state without any recognised key or a throttle without a motor; after a power or throttle search the blade angles used belong to a rotation rate within 1e-14 of the reported one.", "quantifier": "every prop_state, airspeed and diameter", "why_tests_cant": "real-valued, all key combinations", "anchors": ["machup/propmodel.py:PropModel._set_prop_state", "machup/propmodel.py:PropModel._find_rot_rate_power", "machup/propmodel.py:PropModel._find_rot_rate_motor"]}
{"id": "C51", "title": "Propeller force and moment resolution", "statement": "The thrust acts along the propeller's forward axis (unit vector given by elevation and heading), the normal force in the plane of the disk along the projection of the flow, and the moment about the CG is r x F plus the shaft torque and yawing moment about the propeller axes; rotation direction flips only torque and yawing moment.", "quantifier": "every orientation, flow, position", "why_tests_cant": "real-valued", "anchors": ["machup/propmodel.py:PropModel._calc_orientation", "machup/propmodel.py:PropModel._calc_forces", "machup/geometry.py:Prop.get_rot_dir"]}
{"id": "C52", "title": "First blade-element iteration reads uninitialised memory", "statement": "On the first use of a propeller model every blade section starts at exactly zero angle of attack, for which the lift coefficient is never assigned: the iteration starts from uninitialised memory, for every propeller and operating point (finding); for non-zero angles the lift coefficient is always assigned.", "quantifier": "every propeller and operating point", "why_tests_cant": "depends on allocator contents", "anchors": ["machup/propmodel.py:PropModel._get_CL", "machup/propmodel.py:PropModel._find_ei", "machup/propmodel.py:PropModel._find_coefficients"]}
{"id": "C53", "title": "Induced-angle correction", "statement": "After every correction step the induced angle is below one radian in magnitude and has the sign of (blade angle - advance angle), or is zero; when the two angles are exactly equal the sign is unconstrained. After a successful solve all nodes but at most two have settled: two trial angles whose imbalances of the vortex equation differ by at most 1e-11, the induced angle being one of them (turned or replaced by 0.3); the equation itself is not enforced and the imbalance left can be arbitrarily large (finding).", "quantifier": "every propeller, setting, airflow and call history, every node", "why_tests_cant": "real-valued", "anchors": ["machup/propmodel.py:PropModel._correct_ei"]}
{"id": "C54", "title": "Blade pitch conversion", "statement": "The aerodynamic blade angle equals the chord-line blade angle minus the section zero-lift angle, however the pitch was specified.", "quantifier": "every radial station and pitch", "why_tests_cant": "real-valued", "anchors": ["machup/propmodel.py:PropModel._calc_pitch"]}
{"id": "C55", "title": "Slipstream acts only inside the streamtube", "statement": "Wing sections that are not behind the disk and within one propeller radius of its axis see exactly the freestream velocity; inside, each propeller adds its own contribution, whose axial part lies between zero and twice the largest induced axial velocity; the axial development factor lies in (1,2), and for non-negative induced axial velocities the slipstream never expands beyond the disk and its radii keep their order, conserving mass flow between stations.", "quantifier": "every wing point, propeller, induced velocity", "why_tests_cant": "real-valued, unbounded stations", "anchors": ["machup/propmodel.py:PropModel._calc_immersed_wing_points", "machup/propmodel.py:PropModel._calc_prop_wing_vel", "machup/propmodel.py:PropModel._stone_slipstream"]}
{"id": "C56", "title": "Rotation direction codes", "statement": "get_rot_dir returns +1 for 'CCW'/'ccw'/1, -1 for 'CW'/'cw'/-1 and +1 for everything else, in particular for 0 which the documentation gives as the clockwise code (finding).", "quantifier": "every value", "why_tests_cant": "all values", "anchors": ["machup/geometry.py:Prop.get_rot_dir"]}
{"id": "C57", "title": "STL mesh is complete", "statement": "Creating an STL writes every triangle slot of the mesh exactly once and never out of range, for any number of wing segments, sections, propellers, blades and nodes.", "quantifier": "every plane", "why_tests_cant": "unbounded indices", "anchors": ["machup/outputstl.py:create_from_grid"]}
{"id": "C58", "title": "STL rotations are rigid", "statement": "The quaternion built from Euler angles has unit length, rotating by a unit quaternion preserves lengths and dot products, and rotating by a product is the composition of the rotations.", "quantifier": "every angle and vector", "why_tests_cant": "real-valued", "anchors": ["machup/outputstl.py:Euler2Quat", "machup/outputstl.py:Body2Fixed", "machup/outputstl.py:QuatMult"]}
{"id": "C59", "title": "NACA camber slope", "statement": "In the STL airfoil outline the camber slope ahead of maximum camber is the derivative of the camber line, but aft of it it is exactly half of the derivative (finding).", "quantifier": "every NACA 4-digit section and chord position", "why_tests_cant": "real-valued", "anchors": ["machup/outputstl.py:plotNACA"]}
{"id": "C60", "title": "STL airfoil names", "statement": "Airfoils not named NACA get the 2412 outline and 8-character NACA names their own digits; any other name starting with NACA uses the digits of the previous segment, or raises on the first one (finding).", "quantifier": "every list of segments and names", "why_tests_cant": "history dependence over unbounded lists", "anchors": ["machup/outputstl.py:create_from_grid"]}
{"id": "C61", "title": "Forces and moments from section loads", "statement": "The inviscid force is the sum over sections of rho * g * (velocity including induction) x dl, the inviscid moment about the centre of gravity adds the section pitching moments, the viscous force is the sum of 1/2 rho V^2 cd dS along the local velocity, the viscous moment its moment; the distributions report exactly these per-section values.", "quantifier": "every plane, flow, control state and history for which the solve returns", "why_tests_cant": "unbounded sections, real-valued", "anchors": ["machup/llmodel.py:LLModel._compute_forces", "machup/llmodel.py:LLModel._compute_moments", "machup/llmodel.py:LLModel._distributions"]}
{"id": "C62", "title": "STL vertices", "statement": "The saved mesh shows, for each wing segment, at every control point the linear mixture of the outlines at its two ends, scaled by the local chord, in the section's axial and normal directions, with the quarter chord at the control point; for each propeller, k equally spaced blades with the outlines placed along the radius, the quarter chord on the blade axis, handed as the rotation direction.", "quantifier": "every plane whose airfoil names can be drawn, every object history", "why_tests_cant": "unbounded segments, sections, blades and stations, real-valued", "anchors": ["machup/outputstl.py:create_from_grid", "machup/MU.py:MachUp.create_stl"]}
{"id": "C63", "title": "STL blade pitch", "statement": "Blades are drawn with the chord line pitched by the blade angle of the input minus twice the zero-lift angle (finding; it should be the blade angle itself).", "quantifier": "every propeller and station", "why_tests_cant": "real-valued", "anchors": ["machup/outputstl.py:create_from_grid", "machup/propmodel.py:PropModel._calc_pitch"]}
{"id": "C64", "title": "STL trailing edge", "statement": "The outline of a NACA section is open at the trailing edge by exactly 2.1 percent of its thickness, so the surface is not closed (finding).", "quantifier": "every NACA 4-digit section", "why_tests_cant": "real-valued", "anchors": ["machup/outputstl.py:plotNACA"]}
{"id": "C65", "title": "Blade section properties", "statement": "A propeller's section coefficients at each radial station are the piecewise linear interpolation of its airfoils' coefficients over their positions, constant outside them, in whatever order the airfoils are listed; one airfoil holds everywhere and without airfoils NACA2412 is used.", "quantifier": "every propeller and station", "why_tests_cant": "any number of airfoils in any order, real-valued", "anchors": ["machup/propmodel.py:PropModel._calc_coefficients"]}
{"id": "C66", "title": "Propeller thrust and torque", "statement": "The thrust and torque reported for a propeller are the integrals over the radius of the lift and drag of its blade sections, resolved along the axis and against the rotation, computed from the same chords, angles and coefficients the blade distributions list, one row per node; the power coefficient belongs to 2 pi n times that torque, and the efficiency is thrust times airspeed over that power.", "quantifier": "every propeller, setting, airflow and call history for which the solve returns; every quadrature rule that is homogeneous", "why_tests_cant": "unbounded nodes and histories, real-valued", "anchors": ["machup/propmodel.py:PropModel._find_coefficients", "machup/propmodel.py:PropModel._calc_forces", "machup/propssolver.py:PropsSolver._distributions"]}
{"id": "C67", "title": "Velocities at the blade sections", "statement": "In the blade distributions the angle of attack is the pitch minus advance and induced angles; airspeed plus axial induced velocity and rotational speed minus tangential induced velocity are the components of one velocity whose direction is the advance plus induced angle, and the induced velocity is perpendicular to it.", "quantifier": "every propeller with a given rate or advance ratio, every airflow and call history for which the solve returns, every node", "why_tests_cant": "unbounded nodes and histories, real-valued", "anchors": ["machup/propmodel.py:PropModel._find_Vi", "machup/propmodel.py:PropModel._find_coefficients", "machup/propssolver.py:PropsSolver._distributions"]}
{"id": "C68", "title": "Rotation rate from power or throttle", "statement": "A propeller given brake power turns at a rate at which the power absorbed by its blades is the given one, and a propeller given the throttle of its electric motor at a rate at which the torque absorbed is the motor's (loop current of battery, speed control and motor; shaft power = back-emf times current above the no-load current): exactly to 1e-14 at the last rate tried, or the rate is the secant intersection of the last two rates tried, less than 1e-14 from the last one.", "quantifier": "every propeller, power, throttle, motor, airflow and call history for which the solve returns", "why_tests_cant": "unbounded iterations and histories, real-valued", "anchors": ["machup/propmodel.py:PropModel._prop_state_from_power", "machup/propmodel.py:PropModel._electric_motor_torque"]}
{"id": "C69", "title": "Slipstream velocity profile", "statement": "The air velocity the propeller solver hands to the wing solver at a wing point is the airflow plus one contribution per propeller: zero outside the cylinder behind the disk; inside it, an axial part along the slipstream and a part around the axis in the sense of rotation, each the linear interpolation over the radius of values at the stream surfaces through the blade nodes (axial induced velocity times 1 + s/sqrt(s^2+R^2); tangential: twice the angular momentum in the disk, solid-body rotation in the innermost tenth), with the induced velocities the blade distributions list.", "quantifier": "every airplane, wing point, setting, airflow and call history for which the solve returns and the axial induced velocities are not negative", "why_tests_cant": "unbounded points, propellers, nodes and histories, real-valued", "anchors": ["machup/propmodel.py:PropModel._stone_slipstream", "machup/propmodel.py:PropModel._calc_prop_wing_vel", "machup/propssolver.py:PropsSolver.solve"]}
{"id": "C70", "title": "Blade section lift and drag", "statement": "Every row of the blade distributions obeys the section laws: lift proportional to the angle of attack up to two degrees beyond the stall delay due to rotation, then a smooth transition to deep stall centred on the delayed stall angle; drag by the polar between the stall limits and by deep stall beyond them, so that lift at the delayed stall angle is the maximum lift plus that of the delay and drag broadside is 1.29. The lift of a symmetric section is odd in the angle of attack; its drag is not even, since the delay shifts both stall limits the same way (finding).", "quantifier": "every propeller, setting, airflow and call history for which the solve returns, every node", "why_tests_cant": "unbounded nodes and histories, real-valued", "anchors": ["machup/propmodel.py:PropModel._get_CL", "machup/propmodel.py:PropModel._get_CD", "machup/propmodel.py:PropModel._find_coefficients"]}
{"id": "C71", "title": "Distribution tables and their file", "statement": "distributions solves once like solve, returns whenever that does, and returns one row per wing section in grid order (name, geometry, lift coefficient referred to the longitudinal length) whose forces add up to the inviscid force, and one row per blade node, propeller after propeller. Without a file name nothing is written; a text file holds exactly the tables returned with names cut to 18 characters, wings first; a name ending in json gives one JSON object for an airplane without propellers. Findings: a propeller-only airplane appends to the old file, and with propellers the JSON object holds the wing table (or the old file) and the flushed blade rows, and is followed by the unflushed rows.", "quantifier": "every airplane, airflow, control and propeller setting, file name, file system and call history", "why_tests_cant": "unbounded sections, nodes, propellers and histories, real-valued", "anchors": ["machup/MU.py:MachUp.distributions", "machup/llmodel.py:LLModel._distributions", "machup/propssolver.py:PropsSolver._distributions"]}
{"id": "C72", "title": "Results do not depend on the system of units", "statement": "For an airplane, with or without propellers, whose lengths, airspeeds and densities (and rotation rates, of the airplane and of the propellers) are converted to other units, construction succeeds or raises alike, and every session of requests (solve, derivatives, target_lift, stall_onset, find_aero_center, distributions) gets the same exceptions, coefficients, derivatives and angles, and forces, moments, positions, section forces and induced velocities converted. Requests must give airspeed and density (the defaults 10 and 0.0023769 are not converted), and run propellers at an advance ratio or rotation rate (the search for the rate at a given power stops at an absolute tolerance, whatever the units). pitch_trim is not unit independent: it compares lift and moment with one number (finding).", "quantifier": "every airplane, all positive conversion factors, every sequence of requests", "why_tests_cant": "unbounded sections and histories, real-valued factors", "anchors": ["machup/MU.py:MachUp.solve", "machup/MU.py:MachUp.derivatives", "machup/MU.py:MachUp.target_lift", "machup/MU.py:MachUp.find_aero_center", "machup/MU.py:MachUp.pitch_trim", "machup/llmodel.py:LLModel.solve", "machup/propssolver.py:PropsSolver.solve", "machup/propmodel.py:PropModel._find_coefficients"]}
{"id": "C73", "title": "Response to control deflections", "statement": "In a given flow, whether the wing solve returns (or what it raises) does not depend on the control settings. As long as no surface is deflected by more than 11 degrees, the circulation of every section is a constant plus a contribution of each control proportional to its setting, and along any line of settings each component of the inviscid force has its central difference, with any step, as exact derivative.", "quantifier": "every wing grid, given flow, reference point, history, all control settings, lines of settings and steps", "why_tests_cant": "unbounded sections and histories, real-valued settings and steps", "anchors": ["machup/llmodel.py:LLModel.solve", "machup/llmodel.py:LLModel._process_control_state", "machup/llmodel.py:LLModel._solve_linear_system"]}
{"id": "C74", "title": "No load without lift of the single sections", "statement": "The circulation of all sections is zero exactly when no section would lift in the flow without vortices (zero-lift angle corrected for its deflection); all inviscid forces, induced drag included, are then zero and the wings do not disturb the flow.", "quantifier": "every wing grid, flow, control setting and call history for which the solve returns", "why_tests_cant": "unbounded sections and histories, real-valued", "anchors": ["machup/llmodel.py:LLModel.solve", "machup/llmodel.py:LLModel._compute_forces", "machup/llmodel.py:LLModel._setup_linear_matrices"]}
{"id": "C75", "title": "Where the airplane is drawn does not matter", "statement": "If every part of an airplane and its centre of gravity are displaced by the same vector (wings attached to other wings follow them), construction succeeds or raises alike and from any state every call (solve, the derivatives, target_lift, pitch_trim, stall_onset, stall_airspeed), with wings and propellers, returns or raises the same, writes the same files and leaves the same state; find_aero_center and the control points in distributions report positions displaced by that vector.", "quantifier": "every airplane, displacement, state of the object and caller's dictionaries", "why_tests_cant": "unbounded sections, propellers and histories, real-valued displacement", "anchors": ["machup/geometry.py:WingSegment", "machup/llgrid.py:LLGrid", "machup/llmodel.py:LLModel.solve", "machup/propmodel.py:PropModel", "machup/MU.py:MachUp.solve", "machup/MU.py:MachUp.find_aero_center", "machup/MU.py:MachUp.distributions"]}
{"id": "C76", "title": "Mirrored flight", "statement": "For an airplane that is its own mirror image (wings with two like halves, plus upright fins with symmetric airfoils in the plane of symmetry, fins on fins included), solving with sideslip, roll rate, yaw rate, aileron and rudder reversed and the reference point mirrored raises what the original solve raises, or returns its lift, drag, axial and normal force and pitching moment unchanged and its side force, lateral force, rolling and yawing moment reversed, in inviscid, viscous and total results; every section carries what its mirror image carried, sections of fins the opposite.", "quantifier": "every mirror-symmetric airplane, flow, control setting, reference point and pair of call histories", "why_tests_cant": "unbounded sections, wings and histories, real-valued flow", "anchors": ["machup/geometry.py:Airplane.add_wing", "machup/llgrid.py:LLGrid", "machup/llmodel.py:LLModel.solve", "machup/MU.py:MachUp.solve"]}
{"id": "C77", "title": "Longitudinal and lateral derivatives decouple in symmetric flight", "statement": "For a mirror-symmetric airplane without propellers in flight without sideslip, roll, yaw, aileron and rudder, side force, rolling and yawing moment are exactly zero, and derivatives returns exactly zero for every lateral coefficient with respect to angle of attack, pitch rate, elevator and flap, and for every longitudinal coefficient with respect to sideslip, roll rate, yaw rate, aileron and rudder.", "quantifier": "every mirror-symmetric airplane without propellers, symmetric flow and control setting, and call history for which derivatives returns", "why_tests_cant": "unbounded sections and histories, real-valued flow", "anchors": ["machup/MU.py:MachUp.derivatives", "machup/MU.py:MachUp.stability_derivatives", "machup/MU.py:MachUp.damping_derivatives", "machup/MU.py:MachUp.control_derivatives"]}
{"id": "C78", "title": "Order and names of the wings do not matter", "statement": "Entering the wings of an airplane (add_wing, then airfoil and control_surface on each) in another order and under other distinct names returns whenever every wing follows the one it is attached to, and gives the same sections in another order. Constructing a MachUp object succeeds or fails alike, reference values agree, and from corresponding states every call (solve, the derivatives, target_lift, pitch_trim, stall_onset, stall_airspeed, find_aero_center) returns the same answer or raises the same exception, with propellers included; distributions returns the same rows in the new order. Only which of several stalled sections is reported may differ.", "quantifier": "every airplane and list of wings, every order, every renaming, all states and call histories", "why_tests_cant": "unbounded wings, sections and histories, all permutations, real-valued", "anchors": ["machup/geometry.py:Airplane.add_wing", "machup/llgrid.py:LLGrid", "machup/llmodel.py:LLModel.solve", "machup/MU.py:MachUp.solve", "machup/MU.py:MachUp.distributions"]}
{"id": "C79", "title": "Mirrored flight with propellers", "statement": "For an airplane with mirror-symmetric wings, moving its propellers (turning the other way) and its centre of gravity to the other side and reversing sideslip, roll rate, yaw rate, aileron and rudder in every call makes construction raise the same exception or succeed alike, and every call of any sequence of solves raises the same exception or returns lift, drag, axial and normal force and pitching moment unchanged and side force, rolling and yawing moment reversed.", "quantifier": "every airplane with mirror-symmetric wings, any number of propellers, all flows, controls and propeller settings, every sequence of solves", "why_tests_cant": "unbounded sections, propellers and histories, real-valued flow", "anchors": ["machup/MU.py:MachUp.solve", "machup/propssolver.py:PropsSolver.solve", "machup/propmodel.py:PropModel", "machup/llmodel.py:LLModel.solve"]}
{"id": "C80", "title": "Order of the propellers does not matter", "statement": "The same propellers entered in another order: construction succeeds too, and every sequence of solves that returns, returns the same forces and moments.", "quantifier": "every airplane, every order of its propellers, every sequence of solves that returns", "why_tests_cant": "unbounded propellers and histories, all permutations", "anchors": ["machup/MU.py:MachUp.solve", "machup/propssolver.py:PropsSolver.solve", "machup/propssolver.py:PropsSolver._calc_forces"]}
{"id": "C81", "title": "Counter-rotating twins balance", "statement": "A mirror-symmetric airplane with its centre of gravity in the plane of symmetry, each of whose propellers has a mirror image on the other side turning the other way with the same settings, carries no side force, rolling or yawing moment in flight without sideslip, roll, yaw, aileron and rudder.", "quantifier": "every such airplane, symmetric flow, control and propeller setting, every sequence of solves that returns", "why_tests_cant": "unbounded sections, propellers and histories, real-valued flow", "anchors": ["machup/MU.py:MachUp.solve", "machup/propssolver.py:PropsSolver.solve", "machup/propmodel.py:PropModel"]}
{"id": "C82", "title": "Blade planform", "statement": "The blade distributions list for every propeller one row per node, at equal radial distances from the hub to 0.999 of the tip radius, with the chord the input asks for at that radius: by default 0.075 diameters times the root of 1 - (r/R)^2, linear from the root chord at the hub to the tip chord at the last node, elliptical (root times the same factor), or the tabulated c/R times the radius.", "quantifier": "every propeller with at least two nodes, every table, setting, airflow and call history for which the solve returns, every node", "why_tests_cant": "unbounded nodes and histories, real-valued", "anchors": ["machup/propmodel.py:PropModel._calc_chord", "machup/propmodel.py:PropModel._calc_spacing", "machup/propmodel.py:PropModel._linearInterp", "machup/propssolver.py:PropsSolver._distributions"]}
{"id": "C83", "title": "What propellers remember of earlier calls", "statement": "Of all earlier calls only the induced angles of each propeller, and its rotation rate if the call asks for a brake power or throttle, can influence a solve with aero_state and control_state given: two objects for the same airplane that agree in these return the same loads or raise the same exception, write the same file, and agree in all later calls as long as these return (provided uninitialised memory holds the same numbers). A call that raises can leave something behind: a propeller once asked for rotation rate 0 raises ZeroDivisionError for every later brake power or throttle (finding).", "quantifier": "every airplane, pairs of histories, flow, controls, propeller settings, file names, later calls", "why_tests_cant": "unbounded histories, propellers and sections; pairs of executions", "anchors": ["machup/MU.py:MachUp.solve", "machup/propssolver.py:PropsSolver.solve", "machup/propmodel.py:PropModel._find_ei", "machup/propmodel.py:PropModel._prop_state_from_power", "machup/propmodel.py:PropModel._set_prop_state"]}
{"id": "C84", "title": "Editing the airplane after the MachUp object was made", "statement": "A MachUp object answers solve, the derivatives, target_lift, stall_onset, find_aero_center and distributions from the airplane as it was when the object was made: later add_wing, airfoil, control_surface, set_reference_lengths and add_prop calls change no answer. The one exception is cg_location, which acts on wings and propellers at once, as if the object had been made again from the edited airplane. An airplane that gets its first propeller or first wing after the object was made makes every solve raise AttributeError (finding).", "quantifier": "every airplane, every interleaving of edits and requests, every flow, control and propeller setting", "why_tests_cant": "unbounded interleavings, wings, sections and propellers", "anchors": ["machup/MU.py:MachUp.__init__", "machup/MU.py:MachUp.solve", "machup/llgrid.py:LLGrid", "machup/geometry.py:Airplane.cg_location", "machup/propssolver.py:PropsSolver.__init__"]}
{"id": "C85", "title": "Counter-rotating twins after any flight, and their derivatives", "statement": "An airplane as in the property on counter-rotating twins carries no side force, rolling or yawing moment in symmetric flight whatever the same object was asked to solve before, sideslip, rolling and deflected ailerons included. The derivatives of its side force, rolling and yawing moment by angle of attack, elevator, flap and pitch rate, as derivatives() reports them in symmetric flight, are exactly zero.", "quantifier": "every such airplane, every history of solves that return with the same settings for both propellers of a pair, every symmetric flow and control", "why_tests_cant": "unbounded histories, sections and propellers, real-valued flow", "anchors": ["machup/MU.py:MachUp.solve", "machup/MU.py:MachUp.derivatives", "machup/propssolver.py:PropsSolver.solve", "machup/propmodel.py:PropModel._find_ei"]}
{"id": "C86", "title": "Same coefficients at every airspeed and density, propellers included", "statement": "For an airplane with wings, propellers or both, asking the same session of requests with every density times m, every airspeed and rate of rotation times k, and the same angles, deflections and advance ratios returns the same coefficients, derivatives and angles, forces and moments times m k^2 and induced velocities times k, and raises the same exceptions.", "quantifier": "every airplane, every m, k > 0, every session of solve, derivatives, target_lift, stall_onset, find_aero_center and distributions with airspeed and density given and without a propeller set by power or throttle", "why_tests_cant": "unbounded sessions, sections and propellers; real factors", "anchors": ["machup/MU.py:MachUp.solve", "machup/MU.py:MachUp.derivatives", "machup/propssolver.py:PropsSolver.solve", "machup/propmodel.py:PropModel", "machup/llmodel.py:LLModel"]}
{"id": "C87", "title": "When the propeller solver returns", "statement": "With airspeed and density given, angle of attack and sideslip not both 90 degrees, and settings that fix the rotation rate (none, a usable advance ratio, or a nonzero rate), solving an airplane that has propellers, each with at least one node per blade, raises no exception, whatever was asked before; it can only run forever in the search for the induced angles. With one or two nodes per blade it always returns, after at most 51 rounds.", "quantifier": "every airplane with propellers, every airflow, setting of this kind and history of calls, failing ones included", "why_tests_cant": "unbounded histories and propellers; termination", "anchors": ["machup/propssolver.py:PropsSolver.solve", "machup/propmodel.py:PropModel._find_ei", "machup/propmodel.py:PropModel._set_prop_state", "machup/propmodel.py:PropModel._calc_forces"]}
