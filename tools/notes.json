{
 "C03": {
  "note": "Angles are real numbers; rounding out of scope."
 },
 "C10": {
  "note": "Includes the exact set where the scalar and array forms disagree."
 },
 "C11": {
  "note": "Sign loss on (-1,0) is part of the exact characterisation."
 },
 "C15": {
  "note": "The header rewrite is proved as the observable effect; rebuilding is unchanged iff the reference offset is 0."
 },
 "C45": {
  "note": "For rows in depth order; C45_unordered_refuted shows the order is needed."
 },
 "C46": {
  "note": "Sign flip for azimuth differences above pi is proved, not assumed away."
 },
 "C47": {
  "note": "The statement that repeating the call gives the same result is refuted."
 },
 "C48": {
  "note": "Agreement is refuted for a non-zero start_xyz; exact relation proved."
 },
 "C51": {
  "note": "Proved outside one excluded depth per interval, where the code returns a wrong station (refuted with a concrete survey)."
 },
 "C21": {
  "note": "Whatever the steps before the look-up do (they are an arbitrary outcome), construction never succeeds; with complete strings the error is the TypeError of indexing an int."
 },
 "C55": {
  "note": "The exact mirrored law is part of C20_balance; the expected behaviour is refuted with a tapered string."
 },
 "C56": {
  "note": "Datum independence holds without wrapping; the wrapped case is proved to give a strictly larger side force."
 },
 "C58": {
  "note": "About the objective function; the scipy optimiser itself is not modelled."
 },
 "C28": {
  "note": "Monotonicity is proved while the wells do not touch, reversed for overlapping wells, refuted without the restriction."
 },
 "C30": {
  "note": "Positive semidefiniteness for random sources is refuted in general and proved for the stated classes of sources."
 },
 "C31": {
  "note": "For every optimiser that stays in bounds and does not worsen its start."
 },
 "C63": {
  "note": "The rounded value can hide a collision (refuted with a witness)."
 },
 "C22": {
  "note": "Consistent winding is refuted for every n and rows; connectedness is proved as well."
 },
 "C23": {
  "note": "Fuel bounds the loop; any fuel of at least stop-start iterations suffices."
 },
 "C66": {
  "note": "numpy eigh is a parameter: the theorem holds for any unit eigenvector."
 },
 "C68": {
  "note": "The KD-tree query is an arbitrary function returning a valid index."
 },
 "C69": {
  "note": "C69_odd_pedal_refuted is the negative part, for 3 <= rings < n-1."
 },
 "C32": {
  "note": "C32_accepted and C32_method characterise acceptance and choice exactly; C32_presence_only_refuted shows that the choice also depends on the geometry, so the last clause of the statement is false. Curve-hold-curve results come from an iterative solver and are covered by C36, C37."
 },
 "C33": {
  "note": "Excludes targets exactly twice the design radius off the start axis, where the returned dogleg is 0 and the returned path is no path (C33_twice_radius, C33_every_radius_refuted)."
 },
 "C34": {
  "note": "Targets level with the start (half circle) are excluded: there the code divides by the tangent of a right angle. C34_tolerance_band: within the tolerance band below the critical radius the arc keeps the design radius and misses the target by less than min_error times the distance."
 },
 "C72": {
  "note": "Both exceptions are refutation theorems with witnesses."
 },
 "C17": {
  "note": "The unrestricted claim that every station is returned is refuted (rounding to four decimals); proved exactly otherwise. Exact reversals between stations, where the target vector is perturbed at random, are excluded."
 },
 "C35": {
  "note": "Curve-hold-curve sections are covered by C75."
 },
 "C36": {
  "note": "The iterative solver is an arbitrary function on the state; only the start depth must be left alone."
 },
 "C37": {
  "note": "C37_first_rescue: with unit directions the hold length is never negative after the final pass, so the first rescue and the projection are dead code. C37_moving_target_refuted uses the move of C76."
 },
 "C74": {
  "note": "An arc between equal or opposite directions is not determined by them and is excluded; the stored first angle may be off by 1e-9."
 },
 "C76": {
  "note": "C76_moved is an exact characterisation of the first look-ups of the solver; C76_start_kept_refuted is a witness for a moved start."
 },
 "C77": {
  "note": "Targets exactly twice the radius off the start axis are excluded as in C33."
 },
 "C42": {
  "note": "C42_and_refuted is a witness that the documented AND (all criteria, each element once) fails with two criteria."
 },
 "C43": {
  "note": "Recursion is bounded by a fuel argument; C43_chain says that any depth beyond the chain length suffices, C43_cyclic that no depth suffices without an ending chain."
 },
 "C44": {
  "note": "Python values and functions are parameters of the model; parsing is not modelled, theorems range over all syntax trees."
 },
 "C79": {
  "note": "Membership is characterised; sorted() by depth does not change it."
 },
 "C39": {
  "note": "The loop of load is modelled with a fuel argument; C39_ends says the number of lines plus one always suffices. float() and int() are parameters."
 },
 "C40": {
  "note": "The conversion of text to numbers is a parameter assumed to understand decimal notation; P_Wbp4.plain_reader is one."
 },
 "C80": {
  "note": "For plans without a parent file. Time stamp and comments are arbitrary texts."
 },
 "C83": {
  "note": "The sensor readings and the computed angles are specified in Spec_Weights (surveyed, response), independently of the weight functions."
 },
 "C85": {
  "note": "The axial correction is specified as a stationary point of the field mismatch (Spec_Weights.corrected). ABIZ is refuted with a witness and characterised exactly."
 },
 "C86": {
  "note": "XYM3E/XYM4E: exact condition; the full claim is false of the code for azimuths with a negative cosine."
 },
 "C87": {
  "note": "Theorems with the suffix _refuted show where the vertical treatment is not what the neighbouring stations get."
 },
 "C90": {
  "note": "A result with inf or nan is the outcome NotFinite. tan at a right angle counts as not finite (python returns about 1.6e16)."
 },
 "C94": {
  "note": "interior_rates is exact; that the rates are those of a section at the station is refuted in general and characterised by an iff."
 },
 "C95": {
  "note": "Feet and vertical last stations are exact statements of the wrong behaviour, with the suffix _refuted."
 },
 "C97": {
  "note": "Calculator, clock and date parser are arguments (M_Header.world). get_factors_from_x_y is modelled only in its sign convention for the dip."
 },
 "C98": {
  "note": "Exact success condition; failures for feet, magnetic reference and missing covariances are exact."
 },
 "C99": {
  "note": "The separation hypothesis is needed: see C99_lost_station_refuted."
 },
 "C101": {
  "note": "Reproduction is stated for grid-referenced surveys; C101_resurvey_rows gives the exact azimuth shift for the other references. The scipy minimiser that picks the tolerance is not modelled; the value it minimises is."
 },
 "C102": {
  "note": "Stations that coincide with the start of their section (zero chord) are excluded by hypothesis."
 },
 "C103": {
  "note": "C103_feet records the missing unit conversion."
 },
 "C104": {
  "note": "The vertical and over-half-turn behaviours are recorded by the theorems with the suffix _refuted."
 },
 "C105": {
  "note": "The long way round and negative severities are recorded by the theorems with the suffix _refuted."
 },
 "C106": {
  "note": "The ignored maximum length and the answers over half a turn are recorded by the theorems with the suffix _refuted."
 },
 "C107": {
  "note": "The truncated integer directions and the silently empty result are recorded by the theorems with the suffix _refuted."
 },
 "C108": {
  "note": "Connector and the scores are parameters; the unbounded score is recorded by the theorem with the suffix _refuted."
 },
 "C109": {
  "note": "scipy.signal.argrelmin is modelled with its defaults; the two scipy searches are parameters."
 },
 "C110": {
  "note": "The factor below one that is not reported is recorded by the theorem with the suffix _refuted."
 },
 "C112": {
  "note": "The second shift of the azimuths for true and magnetic headers is part of the theorem."
 },
 "C114": {
  "note": "The conditions are those under which the half-angle formula and np.isclose decide as intended; they are defined in Spec_Levels.v. Fuel stands for the number of turns of the loop: the result is reached for all large enough fuel."
 },
 "C116": {
  "note": "These are findings: the levels the documentation promises are missed on such wells."
 },
 "C117": {
  "note": "The sine of the turn must be at least 1e-10 (below that the interpolation formula divides by zero or is cut off). Curve-hold-curve connections, which come from the numerical solver, are not covered."
 },
 "C118": {
  "note": "A finding: interpolate_curve builds the plane of the turn from the cross product of the two directions, which points the other way beyond half a circle."
 },
 "C119": {
  "note": "A finding: the third positional argument of the second Connector is pos1, not dls_design."
 },
 "C120": {
  "note": "A finding: the header keeps degrees where the constructor and plots read radians."
 },
 "C121": {
  "note": "Extends C26 (one error source with given weights) and C87 (XYM3, XYM4) to all weight functions and to whole models. A finding: the vertical end of a survey."
 },
 "C122": {
  "note": "The models are the data of the repository, generated into M_Bundle by tools/mkbundle.py. Findings: names without a file, models that never work, dependence on directory order. The exclusion of level east/west wells in the headers is not enforced by the code."
 },
 "C123": {
  "note": "Sources are assumed to have distinct codes for the entries by source (the keys of a dictionary)."
 },
 "C124": {
  "note": "The two minimisers (scipy) are arbitrary functions of the objective, so they give equal answers for equal objectives. Covariances are turned with the wells: the error models themselves are not covered here (gravity, field and their axes are tied to the frame)."
 },
 "C125": {
  "note": "The meshes and the collision manager (trimesh, fcl) are an arbitrary function of the section index and the sliced survey. Powell is any minimiser meeting never_worse. Finding: slice_survey hands grid azimuths to a header that may refer to true or magnetic north; interpolating in the slice then switches the shared header to grid, so only the first section is affected with return_data=True and all are with return_data=False."
 },
 "C126": {
  "note": "Attribute lists of elements are association lists. Finding: get_wellbore_ids is keyed by name, so a reused wellbore name hides the earlier wellbore from look-up by id and from the graph."
 },
 "C127": {
  "note": "Findings: _get_hole_section_data overwrites hole_section_data[k] for every row, keeping the last; make_case with an unknown id raises (case is None in _get_surveys: survey is unbound); assembly is overwritten by assembly_comp. Left out: a case element with its own survey_header attribute; exceptions for headers lacking the fields read in _get_surveys (C79 covers the assembled surveys)."
 },
 "C128": {
  "note": "float() is an arbitrary partial function to the reals; nan depths are outside. Which tables are attached (profile_tags) is modelled but not claimed."
 },
 "C129": {
  "note": "The regular expression is run by a backtracking matcher written in Gallina (greedy, lazy, optional, alternatives, groups), exact for Latin-1 texts; float() of the seconds text and str() of floats are left out: seconds are compared as text. Findings: the quote is returned as a direction, negative latitudes lose their sign, tiny seconds are read as their mantissa, float rows give None."
 },
 "C130": {
  "note": "The optimiser is arbitrary (its result is a parameter); the values of vars(header) are given as text; fmt with 0 decimals, characters outside latin1 and a missing pandas are left out. Findings: save raises for every survey in feet; tolerance is not honoured with the default dls_cont=False; the TVDSS column has the opposite sign of survey_to_df."
 },
 "C131": {
  "note": "The largest float is a parameter. Findings: NORTHING and EASTING are pos_nev (scaled, with start_xyz included), not n and e; infinite turn rates are shown as 1.8e308."
 },
 "C132": {
  "note": "Texts have characters below 256; opening the workbook (openpyxl) is left out; numbers in cells are finite; str of a number and float of a text are parameters. "
 },
 "C133": {
  "note": "Texts have characters below 256; opening the workbook (openpyxl) is left out; numbers in cells are finite; str of a number and float of a text are parameters. Finding: a model with both XCLA and XCLL loses one of them."
 },
 "C134": {
  "note": "Texts have characters below 256; opening the workbook (openpyxl) is left out; numbers in cells are finite; str of a number and float of a text are parameters. The pattern is run by the backtracking matcher of C129."
 },
 "C135": {
  "note": "Texts have characters below 256; opening the workbook (openpyxl) is left out; numbers in cells are finite; str of a number and float of a text are parameters. Finding: a missing column reads as 0 where an empty cell reads as nan."
 },
 "C136": {
  "note": "Texts have characters below 256; opening the workbook (openpyxl) is left out; numbers in cells are finite; str of a number and float of a text are parameters. Finding: validation values are taken by position, not by name."
 },
 "C137": {
  "note": "Texts have characters below 256; opening the workbook (openpyxl) is left out; numbers in cells are finite; str of a number and float of a text are parameters. Finding: generated block names can clash."
 },
 "C138": {
  "note": "The error model (Survey, err.errors) is a parameter of the model; its computations are the subject of other properties. Findings: zero targets accept anything; totals are compared by row number."
 },
 "C139": {
  "note": "Printing of the summary is left out. Findings: the exit code ignores totals, missing sources and rows between stations."
 },
 "C140": {
  "note": "Texts have characters below 256. Findings: the check for labels is dead code; the end of a file without station line is lost."
 },
 "C141": {
  "note": ""
 },
 "C142": {
  "note": "Evaluating a formula is a parameter (see the interpreter properties); magnitudes are finite. Finding: max() ignores nan unless it comes first."
 },
 "C143": {
  "note": "Evaluating a formula and calling a weight function are parameters. Finding: rtol and atol are unused."
 },
 "C144": {
  "note": "Findings: repeated bottoms give repeated stations; surveys in feet fail; the azimuth reference of the caller's header is overwritten; the new survey starts at the origin."
 },
 "C145": {
  "note": "Cells as openpyxl gives them. Findings: factors are not matched with stations; make_survey asks for a well named offset that is never imported."
 },
 "C146": {
  "note": "trimesh itself (validation, decimation) is not modelled, except that decimation returns a new mesh. Findings: the documented list fails; arrays fail as origin; the reduction is discarded."
 },
 "C147": {
  "note": "vedo is a parameter. Findings: polygons cannot be made; only circles can be drawn."
 },
 "C148": {
  "note": "Connector, from_connections on connections and utm are parameters. Finding: the function cannot be used."
 },
 "C149": {
  "note": "Regular expressions as matching functions over lists of characters. Findings: upper-case names are not translated (and then fail the whitelist, C44); ** groups to the right where ^ in a workbook groups to the left."
 },
 "C150": {
  "note": "Curve-hold-curve solutions, which depend on the iterative solver, only as the outcome SolverOutcome. Findings: the relative tolerance of np.allclose grows with the coordinates; a vertical start given as a direction has azimuth 0."
 },
 "C151": {
  "note": "The formulas are read from the files, rewritten, parsed and evaluated by the modelled interpreter (numpy functions over the reals). Findings: GField for Gfield, Bfield for BField and other names without a value silence eleven functions; ABIZ lacks a factor."
 },
 "C152": {
  "note": "Covariances that contain an infinite or undefined entry count as not finite. Finding: tortuosity and gyro noise terms are left out of every gyro model."
 },
 "C153": {
  "note": "The codes are those of error_codes.yaml. Findings: two magnitudes for the declination in one release; the rule for the second station compares the name with rev5 and never applies under the accepted names."
 },
 "C154": {
  "note": "A reversal (two neighbouring stations in exactly opposite directions) is excluded: the ratio factor is not defined there."
 },
 "C155": {
  "note": "Refuted parts are findings: the two readers differ on irregular sheets, a blank cell after a gyro section raises TypeError, and `continue` in the inner loop over sheet_ignore_list skips nothing. Opening workbooks and writing yaml files are not modelled."
 },
 "C156": {
  "note": "Refuted parts are findings: nan for every vertical start, a connection tighter than the design with the option set, and a reported end the reported turn does not reach."
 },
 "C157": {
  "note": "C157_candidate_refuted records the finding that the fallback start points lie where the angle is 0/0. That the damped iteration converges is not claimed."
 },
 "C158": {
  "note": "Exponents are unbounded in the model (no overflow or underflow). C158_north_refuted shows that the relative bound does not hold across north; C158_absolute is what holds there. C158_binary64 uses Flocq definitions of nearest rounding, with a correctly rounded library."
 },
 "C159": {
  "note": "Exponents are unbounded in the model. The angles and depths are taken as the machine holds them: the conversion from degrees is not included."
 },
 "C160": {
  "note": "Exact arithmetic; C159 bounds the rounding errors."
 },
 "C161": {
  "note": "C161_vertical_refuted: a vertical node does not keep its azimuth. C161_target_depth: Connector(node1, node2) with a target node that has a position, a direction and a depth always raises. unit, cov_nev and further keywords of a node are not modelled. Zeros have no sign in the model: the azimuth numpy reports for a vertical direction can be 0 or pi."
 },
 "C162": {
  "note": "C162_pedal_refuted: stations are misattributed for odd n_verts with the pedal curve. The KD tree is any search that returns a nearest point; vedo, text formats and the dls in the text are not modelled."
 },
 "C163": {
  "note": "C163_caps_refuted, C163_edges_refuted and C163_turned_refuted are defects of the code. trimesh (unique rows, windings) is an argument with stated assumptions; plotly is not modelled."
 },
 "C164": {
  "note": "plotly and the text format are not modelled."
 },
 "C165": {
  "note": "MeshClearance.get_lines (points of the collision library) is not modelled."
 },
 "C166": {
  "note": "C166_reused_refuted: a reused case id."
 },
 "C167": {
  "note": "C167_crossing_refuted and C167_search_refuted show that the reported distances alone do not bound the distance of the wells. Rounding is not modelled here."
 },
 "C168": {
  "note": "Exact arithmetic; the measured directions are taken as exact (C160 bounds the effect of their errors)."
 },
 "C169": {
  "note": "The position reached by a half-circle turn is not stated: in floating point tan(pi/2) is a huge number, in the reals it has no value."
 }
}