{"id": "C01", "title": "Direction vectors and angles are inverse", "statement": "get_vec(inc, azi) is a unit vector with components sin(inc)cos(azi) north, sin(inc)sin(azi) east, cos(inc) down (nev=True; x/y swapped otherwise); get_angles of any non-zero vector returns inc in [0,pi] and azi in [0,2pi) and get_vec of those angles is the normalised input; get_angles(get_vec(inc,azi)) returns (inc,azi) whenever 0<inc<pi and 0<=azi<2pi.", "quantifier": "every pair of angles and every non-zero 3-vector, both axis orders", "why_tests_cant": "a continuum of directions with four atan2 quadrants and a wrap at 2pi; samples cannot exclude a sign or quadrant mistake on some cone", "anchors": ["welleng/utils.py:get_vec", "welleng/utils.py:get_angles", "welleng/utils.py:_get_angles"]}
{"id": "C02", "title": "xyz and nev coordinates are inverse views", "statement": "get_xyz(get_nev(p, start_xyz, start_nev), start_xyz, start_nev) = p and vice versa, distances between points are preserved, and start_xyz maps to start_nev.", "quantifier": "every position and every pair of datums", "why_tests_cant": "holds for all reals or not at all; a swapped axis is invisible on symmetric samples", "anchors": ["welleng/utils.py:get_nev", "welleng/utils.py:get_xyz"]}
{"id": "C03", "title": "Dogleg is the angle between the station tangents", "statement": "get_dogleg(inc1,azi1,inc2,azi2) lies in [0,pi], its cosine is the dot product of the two station direction vectors, it is symmetric in the stations, invariant under adding a common azimuth offset or a multiple of 2pi to either azimuth, and it is 0 exactly when the two direction vectors coincide. The haversine argument of arcsin is always within [0,1], so no NaN arises.", "quantifier": "every pair of inclinations in [0,pi] and every pair of azimuths", "why_tests_cant": "four free real parameters, and the domain condition of arcsin must hold everywhere", "anchors": ["welleng/utils.py:get_dogleg"]}
{"id": "C04", "title": "A minimum-curvature step is a circular arc", "statement": "For stations whose tangents are not opposite, min_curve_step moves along the circular arc tangent to both stations: chord length is delta_md*sin(dl/2)/(dl/2) (delta_md when dl=0), never longer than delta_md; the step is delta_md times the tangent when dl=0; the chord makes equal angles with both tangents; reversing the stations and both tangents retraces the step.", "quantifier": "every delta_md >= 0 and every pair of stations with dogleg in [0,pi)", "why_tests_cant": "continuum of stations; the ratio factor is singular at dl=pi and special-cased at dl=0", "anchors": ["welleng/utils.py:min_curve_step", "welleng/utils.py:get_rf"]}
{"id": "C05", "title": "Splitting an arc at an interpolated station changes nothing", "statement": "Inserting, between two consecutive stations, the station that spherical interpolation gives at any intermediate measured depth leaves the positions of both original stations unchanged, the inserted tangent is a unit vector in the plane of the two tangents at dogleg proportional to the measured depth, and the two partial doglegs add up to the whole.", "quantifier": "every pair of stations with dogleg in (0,pi) and every split fraction in [0,1], also when dogleg is 0", "why_tests_cant": "the claim is an identity in seven real parameters; tests only sample it within a tolerance", "anchors": ["welleng/survey.py:_interpolate_survey", "welleng/survey.py:_interpolate_pos_nev", "welleng/utils.py:min_curve_step"]}
{"id": "C06", "title": "Survey positions are the running sum of steps", "statement": "MinCurve returns one position per station, the first is start_xyz, consecutive positions differ by exactly the minimum-curvature step of that pair (x=east, y=north, z=down), a prefix of the survey gives the prefix of the positions, moving start_xyz translates every position, and fewer than two stations or an unknown unit is rejected.", "quantifier": "every survey of every length and every start position", "why_tests_cant": "lists of arbitrary length; off-by-one at the first row shows only as a shift of all later rows", "anchors": ["welleng/utils.py:MinCurve"]}
{"id": "C07", "title": "Dogleg severity normalisation", "statement": "MinCurve.dls is 0 at the first station, degrees(dogleg)*30/delta_md in meters and *100 in feet for distinct measured depths, 0 for a repeated identical station, and infinite (not 0) for a repeated depth with a change of direction.", "quantifier": "every survey, including repeated measured depths", "why_tests_cant": "the 0/0 and x/0 branches depend on IEEE special values for all inputs", "anchors": ["welleng/utils.py:MinCurve"]}
{"id": "C08", "title": "NEV/HLA transforms are rigid", "statement": "The NEV to HLA transform at any inclination and azimuth is a rotation: HLA_to_NEV undoes NEV_to_HLA for vectors and covariances, the along-hole axis is the station tangent and the lateral axis is horizontal, and for covariances symmetry, trace and every variance along a direction are preserved (so positive semidefinite stays so).", "quantifier": "every inclination, azimuth, vector and 3x3 matrix", "why_tests_cant": "nine-parameter identities; a transposed product agrees on symmetric or diagonal samples", "anchors": ["welleng/utils.py:NEV_to_HLA", "welleng/utils.py:HLA_to_NEV", "welleng/utils.py:_get_transform"]}
{"id": "C09", "title": "Covariance packing round-trips", "statement": "errors_from_cov(make_long_cov(row)) returns row; make_long_cov is symmetric for every row and rebuilds every symmetric matrix from errors_from_cov; get_sigmas(long) returns the same six numbers; cov_from_vec is symmetric positive semidefinite of rank at most one; make_cov(long=True) agrees with it.", "quantifier": "every row of six reals, every symmetric matrix, every vector", "why_tests_cant": "index permutations agree on symmetric samples", "anchors": ["welleng/utils.py:make_long_cov", "welleng/utils.py:errors_from_cov", "welleng/utils.py:cov_from_vec", "welleng/utils.py:get_sigmas", "welleng/utils.py:make_cov"]}
{"id": "C10", "title": "dls and radius conversions are inverse, with infinities", "statement": "radius_from_dls and dls_from_radius are inverse on every non-zero finite value; dls 0 gives an infinite radius and an infinite radius gives dls 0; scalar radius 0 gives infinite dls while an array element radius 0 gives dls 0 (the two call forms disagree exactly there).", "quantifier": "every finite or infinite value, scalar and array forms", "why_tests_cant": "the disagreement is a single point of the domain", "anchors": ["welleng/utils.py:dls_from_radius", "welleng/utils.py:radius_from_dls"]}
{"id": "C11", "title": "Degrees/minutes/seconds round trip", "statement": "dms2decimal(decimal2dms(x)) = x for every decimal angle x outside the open interval (-1,0); inside that interval the sign is lost and the result is -x. Minutes are an integer in 0..59 and seconds in [0,60).", "quantifier": "every real angle", "why_tests_cant": "failure region is an interval that whole-degree examples never touch", "anchors": ["welleng/utils.py:decimal2dms", "welleng/utils.py:_decimal2dms", "welleng/utils.py:_dms2decimal"]}
{"id": "C12", "title": "Toolface is well defined and the two implementations agree", "statement": "get_toolface and get_toolface_fast return the same angle in [0,2pi) for every pair of positions and every non-zero direction; it is the bearing of the offset in the plane normal to the direction, measured from high side toward the right; moving pos2 along the direction or translating both positions does not change it.", "quantifier": "every reference position, non-zero direction and offset position", "why_tests_cant": "two independently written closed forms over eight real parameters", "anchors": ["welleng/utils.py:get_toolface", "welleng/utils.py:get_toolface_fast"]}
{"id": "C13", "title": "Transformed arcs obey minimum curvature", "statement": "get_arc started at (pos, vec) with any toolface ends at distance radius from one fixed centre perpendicular to vec, with a unit end tangent at angle dogleg to vec, and its displacement equals the minimum-curvature step of length dogleg*radius between the two tangents; its length is dogleg*radius; make_clc_path joins arc, straight and arc with matching positions and tangents.", "quantifier": "every start, direction, toolface, dogleg in (0,pi) and radius", "why_tests_cant": "composition of three rotations with a separately coded displacement formula", "anchors": ["welleng/utils.py:Arc", "welleng/utils.py:get_arc", "welleng/utils.py:make_clc_path"]}
{"id": "C14", "title": "Azimuth references stay consistent", "statement": "Whatever azi_reference a survey is built with, its true azimuth minus convergence is its grid azimuth and its true azimuth minus declination is its magnetic azimuth; rebuilding the survey from any one of its own three azimuths under the matching reference reproduces all three.", "quantifier": "every azimuth, convergence, declination and reference", "why_tests_cant": "three branches times real offsets; degree/radian handling multiplies them", "anchors": ["welleng/survey.py:Survey._process_azi_ref"]}
{"id": "C15", "title": "Depth queries do not alter the survey they query", "statement": "Interpolating a survey whose header says azi_reference is true or magnetic rewrites that caller-owned header to grid, so a survey rebuilt from the same header and the same azimuths differs whenever convergence or declination is non-zero; with a grid header nothing observable changes.", "quantifier": "every survey header and every interpolation depth", "why_tests_cant": "an aliasing effect on later calls, visible only across a history of calls", "anchors": ["welleng/survey.py:_interpolate_survey", "welleng/survey.py:Survey.interpolate_md"]}
{"id": "C16", "title": "Interpolating at a measured depth finds the right interval", "statement": "interpolate_md(md) returns a station with exactly that md for every md between the first and last station, uses the unique interval containing it, returns None above the last depth, and at an original station returns that station's own inclination, azimuth and position.", "quantifier": "every strictly increasing list of measured depths of any length and every md", "why_tests_cant": "boundary behaviour of searchsorted on arbitrary lists", "anchors": ["welleng/survey.py:Survey.interpolate_md", "welleng/survey.py:interpolate_md", "welleng/survey.py:_interpolate_survey"]}
{"id": "C17", "title": "Step interpolation grid", "statement": "Interpolating a survey of at least two stations at a positive step gives rows strictly increasing in depth, each at an original station, at a multiple of the step strictly between the first and last depth, or at a depth where the design curvature completes a turn early (possible only where the survey turns less than the design curvature allows, or nearly reverses). Every station and every such multiple is within 0.0001 of a returned depth, and is itself returned (with gaps at most the step) when all of these depths differ by more than 0.0001; a station less than 0.00005 beyond a multiple is dropped. A row is flagged not interpolated exactly when its depth is a station's. Directions follow the minimum-curvature arc between the neighbouring stations, and a row at a station has its direction, except after a turn whose sine is below 1e-10, where it has the previous station's direction. Fewer than two stations give no survey.", "quantifier": "every survey with strictly increasing depths and no exact reversal of direction between stations, every positive step and design curvature", "why_tests_cant": "unbounded numbers of stations and alignment cases", "anchors": ["welleng/survey.py:interpolate_survey", "welleng/survey.py:from_connections", "welleng/survey.py:_remove_duplicates", "welleng/connector.py:interpolate_curve", "welleng/connector.py:interpolate_hold"]}
{"id": "C18", "title": "String sections are contiguous", "statement": "After any sequence of add_section calls that did not raise, a String's sections are indexed 0..n-1 in depth order and join without gap: top-down sections tile from the declared top to the top of the last section and none passes the declared bottom; bottom-up sections tile from the bottom of the first section to the declared bottom and none passes the declared top. If no section is ever upside down they tile the whole interval and complete is True exactly when both limits are reached; sections added bottom-up by positive lengths never raise and stack from the bottom, clipped at the top. (A negative length is accepted and breaks completeness.)", "quantifier": "every sequence of calls with every keyword combination", "why_tests_cant": "histories of arbitrary length and the order-dependent re-indexing", "anchors": ["welleng/architecture.py:String"]}
{"id": "C19", "title": "Positioning a string at a depth", "statement": "String.depth(md) of a complete bottom-up string whose sections were added with lengths yields a complete contiguous string from the same top to md, built from the same section properties from the bottom up; depths outside (top,bottom] are rejected; a section added without a length makes it fail.", "quantifier": "every string built by any sequence of calls and every md", "why_tests_cant": "inductive over the number of sections", "anchors": ["welleng/architecture.py:String.depth"]}
{"id": "C20", "title": "Torque and drag ordering", "statement": "For non-negative friction the tension increments satisfy slackoff <= rotating <= pickup at every station, torque is non-decreasing from bit to surface, all three coincide and torque stays constant at zero friction, and buoyed weights scale with (string-fluid)/string density. The angles used over each interval are the mean inclination of its two ends and the differences of inclination and azimuth between them.", "quantifier": "every well path, weight profile and friction profile of any length", "why_tests_cant": "an induction over stations; each step feeds tension into the next normal force", "anchors": ["welleng/torque_drag.py:TorqueDrag.get_forces_and_torsion", "welleng/torque_drag.py:force_normal", "welleng/torque_drag.py:force_tension_delta", "welleng/torque_drag.py:torsion_delta", "welleng/torque_drag.py:buoyancy_factor"]}
{"id": "C21", "title": "TorqueDrag cannot be constructed from a complete string", "statement": "Building the per-interval weights iterates over the keys of the section dictionary as if they were sections, so TorqueDrag raises for every complete string with at least one section, instead of mapping every interval to the section that contains it.", "quantifier": "every non-empty string", "why_tests_cant": "a universally quantified failure of an entry point no test constructs", "anchors": ["welleng/torque_drag.py:TorqueDrag.get_weight_buoyed_and_radius", "welleng/torque_drag.py:TorqueDrag.get_coeff_friction_sliding", "welleng/architecture.py:String"]}
{"id": "C22", "title": "Well mesh is watertight", "statement": "The faces of a well mesh with n>=3 vertices per ring and r>=2 rings reference only existing vertices, number 2nr, are non-degenerate, use every vertex, and every edge of every face belongs to exactly two faces; their windings are nevertheless not consistent.", "quantifier": "every n_verts >= 3 and rows >= 2", "why_tests_cant": "parametric in two unbounded sizes", "anchors": ["welleng/mesh.py:get_faces", "welleng/mesh.py:get_ends"]}
{"id": "C23", "title": "Mesh slices cover the survey", "statement": "sliced_mesh windows start at start, end at stop, each consecutive pair shares exactly one station, each window has at least two stations and at most step+1, for every start+2<=stop<=n and step>=1; with its default method argument the call always raises.", "quantifier": "every start, stop, step and survey length", "why_tests_cant": "loop with data-dependent termination", "anchors": ["welleng/mesh.py:sliced_mesh", "welleng/mesh.py:WellMesh.__init__"]}
{"id": "C24", "title": "Error covariances are valid covariances", "statement": "For every set of error sources with random, systematic, global or within_pad propagation, each source covariance and their total are symmetric positive semidefinite at every station and zero at the first station, and the total equals the sum of the four per-propagation totals.", "quantifier": "every survey length, every error vector field and every finite set of sources", "why_tests_cant": "inductive over stations and sources", "anchors": ["welleng/error.py:ErrorModel._generate_error", "welleng/errors/tool_errors.py:ToolError.__init__"]}
{"id": "C25", "title": "Position Jacobian is the derivative of balanced tangential", "statement": "The derivative columns used to turn depth, inclination and azimuth errors into position errors are the exact partial derivatives of the balanced-tangential displacement of the interval before and of the interval after each station, except the north/inclination entry of the first interval, which is doubled for every model other than rev4; the one-pass matrix equals the separately coded derivative functions.", "quantifier": "every survey and every station", "why_tests_cant": "derivative identities hold pointwise on a continuum", "anchors": ["welleng/error.py:ErrorModel._drdp", "welleng/error.py:ErrorModel.drk_dInc", "welleng/error.py:ErrorModel.drk_dAz", "welleng/error.py:ErrorModel.drk_dDepth", "welleng/error.py:ErrorModel.drkplus1_dDepth"]}
{"id": "C26", "title": "Systematic and random propagation laws", "statement": "A systematic source has covariance equal to the outer product of the accumulated error vector, a random source the sum of outer products; scaling the magnitude by c scales every covariance by c squared; a station's covariance does not depend on later stations.", "quantifier": "every survey length and magnitude", "why_tests_cant": "cumulative sums of arbitrary length", "anchors": ["welleng/error.py:ErrorModel._generate_error", "welleng/error.py:ErrorModel._sigma_e_NEV_systematic"]}
{"id": "C27", "title": "Tool models with well-propagated terms fail", "statement": "A JSON tool model containing a term whose propagation mode is Well produces no error object for that term and building the survey error then raises; models using only Random, Systematic and Global terms do not.", "quantifier": "every JSON tool model", "why_tests_cant": "depends on the contents of data files, quantified over all models", "anchors": ["welleng/errors/tool_errors.py:_JSON_PROP_TO_LEGACY", "welleng/errors/tool_errors.py:ToolError.__init__", "welleng/error.py:ErrorModel._generate_error"]}
{"id": "C28", "title": "Separation factor decisions", "statement": "With a positive uncertainty boundary the separation factor is at least 1 exactly when the centre distance is at least the minimum allowable separation distance, at least 0 exactly when the wellbores plus margin do not touch, and equals 1 + eou_separation/eou_boundary. While the wells do not touch it is non-increasing in k, sigma_pa, surface margin, radii and both covariances, and it is non-decreasing as the offset point moves away along its line of sight. When the wells overlap, more uncertainty raises it (so monotonicity everywhere is refuted). With no uncertainty at all it is +inf, -inf or nan by the sign of the gap.", "quantifier": "every distance, radius, covariance, k, sigma_pa and Sm", "why_tests_cant": "inequalities over eight real parameters", "anchors": ["welleng/clearance.py:IscwsaClearance.__init__"]}
{"id": "C29", "title": "Pedal curve radius", "statement": "The pedal radius of a well in the direction of the other is the standard deviation of its position along that direction: non-negative, unchanged when the direction is reversed, at most the square root of the trace, additive in independent covariances, zero when the two centres coincide; swapping the roles of reference and offset at a pair of points leaves distance and combined sigma unchanged.", "quantifier": "every pair of positions and every positive semidefinite covariance", "why_tests_cant": "quadratic forms over all directions", "anchors": ["welleng/clearance.py:IscwsaClearance._get_PCRs", "welleng/clearance.py:IscwsaClearance._get_delta_nev_vectors"]}
{"id": "C30", "title": "Sidetrack uncertainty restarts at the kick-off point", "statement": "The reference covariance used below the kick-off point is symmetric, has one matrix per station from the kick-off station on, and is zero at the kick-off station, the first station at or below the kick-off depth. It is positive semidefinite when every random source is depth-only, or has no depth component under the revision-4 derivative matrix; a systematic source contributes exactly the square of the error accumulated since the kick-off station. For a random source in general it is not positive semidefinite, and the separation factor can become NaN.", "quantifier": "every error source, survey length and kick-off index", "why_tests_cant": "positive semidefiniteness is a universally quantified inequality; the violation is a rare configuration", "anchors": ["welleng/clearance.py:Clearance._get_ref_cov_below_kop"]}
{"id": "C31", "title": "Closest offset point never worse than the closest station", "statement": "For each reference station the reported offset point lies on an interval adjacent to the nearest offset station, and if each bounded one-dimensional minimisation returns a value no greater than at its starting point, its distance is no greater than the distance to that nearest station, hence to every offset station.", "quantifier": "every pair of wells and every optimiser that does not worsen its start", "why_tests_cant": "depends on argmin over arbitrary lists and on an external optimiser", "anchors": ["welleng/clearance.py:IscwsaClearance._get_closest_points"]}
{"id": "C32", "title": "Connector method dispatch", "statement": "For each combination of supplied target fields the connector either rejects it or selects exactly one of its methods; it is accepted exactly under the documented presence rules, and the choice depends only on which fields are present, the force flag, and whether the target is straight ahead in the start direction (presence alone does not decide it). The exceptions a call can still raise after acceptance are exactly the missing-depth hold and the missing-severity turn.", "quantifier": "all combinations of supplied inputs", "why_tests_cant": "combinatorial input space with overlapping assertion rules", "anchors": ["welleng/connector.py:Connector.__init__", "welleng/connector.py:Connector._get_method"]}
{"id": "C33", "title": "Curve-and-hold connection reaches its target", "statement": "When the design radius does not exceed the critical radius, following the arc of the design radius through the returned dogleg and then the returned straight length along the exit tangent ends exactly at the target; both lengths are non-negative and the tangent is continuous. The one exception is a target exactly two design radii off the start axis, where a zero dogleg is returned and the returned path does not exist.", "quantifier": "every start, unit direction, target position and positive radius", "why_tests_cant": "continuum of geometries including targets behind the start", "anchors": ["welleng/connector.py:min_dist_to_target", "welleng/connector.py:get_curve_hold_data", "welleng/connector.py:get_radius_critical"]}
{"id": "C34", "title": "Single-arc connection reaches its target", "statement": "The minimum-curvature connection to a point off the start axis and not level with the start is the arc of the critical radius with the returned dogleg; it ends exactly at the target, and the critical radius is the largest design radius for which curve-and-hold is solvable. Within the relative tolerance just below the critical radius the arc keeps the design radius and misses by less than that tolerance times the distance.", "quantifier": "every start, unit direction and off-axis target", "why_tests_cant": "continuum", "anchors": ["welleng/connector.py:min_curve_to_target", "welleng/connector.py:get_radius_critical"]}
{"id": "C35", "title": "Interpolated well plans align to the step", "statement": "Depths produced for a curve or hold section of positive length start at the section start, end at the section end (unless the end is excluded), are strictly increasing, are otherwise exactly the multiples of the step in between, and no gap exceeds the step; without a step only the ends are produced. For a whole connection (hold, curve, curve and hold) the depths are exactly its start, its tangent point, its end and the multiples in between, in non-decreasing order with no gap above the step; a zero-length hold repeats its depth.", "quantifier": "every start depth, length and positive step", "why_tests_cant": "number of points unbounded", "anchors": ["welleng/connector.py:interpolate_curve", "welleng/connector.py:interpolate_hold", "welleng/connector.py:interpolate_well"]}
{"id": "C36", "title": "Planned measured depths never decrease", "statement": "In every finished curve-hold-curve connection between unit directions, whatever the iterative solver produced, the measured depths at the start, end of the first curve, end of the hold and target are non-decreasing.", "quantifier": "every solution the solver can produce", "why_tests_cant": "quantifies over all numeric outcomes of an iterative solver", "anchors": ["welleng/connector.py:Connector._happy_finish"]}
{"id": "C37", "title": "Rescue passes never worsen the endpoint", "statement": "The endpoint-rescue and planarity passes return a solution whose endpoint error is no larger than the one they were given, whatever the inner solver returns, provided the solver leaves the problem (start, target and their directions) alone; the planarity pass needs no proviso. After the final pass of the solver the first rescue pass and the tangent projection never change anything; on any state whose hold runs backwards, that pass takes the first of two further solutions (seeded at the end of the first curve, then halfway to the target) whose hold is not backwards and whose smaller arc is not tighter, and otherwise restores the attributes it was given. When the solver moves the target (it does for a target exactly on the start axis) the rescued endpoint error can be larger.", "quantifier": "every sequence of candidate solutions, every state of the connection", "why_tests_cant": "quantifies over all behaviours of a numerical solver", "anchors": ["welleng/connector.py:Connector._endpoint_rescue", "welleng/connector.py:Connector._enforce_planarity"]}
{"id": "C38", "title": "Drilling fluid volume fractions", "statement": "The water, oil and weighting-material fractions of a Fluid always sum to one and are non-negative whenever the fluid is at least as dense as its base fluid; the recombined density equals the requested density only when no weighting material is needed, otherwise it is lower.", "quantifier": "every density, temperature, pressure and water ratio", "why_tests_cant": "identity over all reals; the shipped test overrides the fractions", "anchors": ["welleng/fluid.py:Fluid._get_volumes_reference"]}
{"id": "C39", "title": "Every .wbp line belongs to exactly one plan", "statement": "Loading a .wbp file ends after at most one pass per line. If it succeeds, the lines are split into consecutive blocks, one per plan, in order and with none lost, each but the first beginning at a well header; every plan is what reading its block alone gives, with the units of the plan before. When no section line (DEPTH, TARGETS:, WELLPLANS:) follows the first header and no TARGETS section is open there, the number of plans is the number of header lines; a repeated section line makes two headers one plan. A file with a blank line anywhere is never loaded. A line of survey data appended to a file changes the depth, azimuth and inclination of the last step of the last plan and nothing else (it fails if there is no step); without a plan no turn point is a tie-on.", "quantifier": "every file as a list of lines, every conversion of text to numbers", "why_tests_cant": "loop over an external file with a resumable cursor", "anchors": ["welleng/exchange/wbp.py:load", "welleng/exchange/wbp.py:WellPlan._process_wbp_data"]}
{"id": "C40", "title": ".wbp header fields round-trip", "statement": "A header can be written exactly when its location type, plan method and dirty flag are in the tables and it has a sidetrack id, a dls and an extension. Written and read, it comes back with the same type, method and flag, the same names and sidetrack id (blank ones as None) and dls and extension rounded to 2 and 5 decimals, whenever each text fits its column and has no surrounding blanks. A blank sidetrack id comes back as None and such a header cannot be written again. A plan name 1 to 6 characters too long makes the file unreadable.", "quantifier": "every header", "why_tests_cant": "fixed-width fields over all strings", "anchors": ["welleng/exchange/wbp.py:add_header", "welleng/exchange/wbp.py:WellPlan._add_wellplan_header", "welleng/exchange/wbp.py:string_strip"]}
{"id": "C41", "title": "Duplicate stripping", "statement": "strip_duplicates keeps the first station and exactly those whose inclination differs from that of the station before, so it also drops distinct stations (for example turns at constant inclination or the end of a hold): the last station is lost whenever the last two inclinations are equal, and the total depth with it.", "quantifier": "every list of stations", "why_tests_cant": "list of arbitrary length", "anchors": ["welleng/exchange/wbp.py:strip_duplicates"]}
{"id": "C42", "title": "EDM attribute queries", "statement": "For every requested tag, get_attributes returns the elements with that tag in document order: all of them once without criteria; with a single criterion exactly the ones that meet it, once; with several criteria and AND, each element as often as the number of criteria at the head of the list it meets before the first it fails (so elements meeting only the first criterion are returned, and elements meeting all are returned once per criterion); with OR, once for each criterion from the first one met on. Tags not requested get no entry, and no entry is an empty list.", "quantifier": "every document, tag list and criteria list", "why_tests_cant": "quantifies over all documents and criteria", "anchors": ["welleng/exchange/edm.py:EDM.get_attributes"]}
{"id": "C43", "title": "EDM parent lookup depends on history", "statement": "When ids are distinct, get_parents with a fresh class returns the chain of parents of a wellbore, nearest first, and it returns at all exactly when that chain ends (a cyclic document exhausts the recursion). In a sequence of calls every result is the concatenation of the chains of all wellbores asked for so far, so the answer for one wellbore depends on all earlier calls.", "quantifier": "every document with distinct wellbore ids, every sequence of calls", "why_tests_cant": "property of call histories", "anchors": ["welleng/exchange/edm.py:EDM.get_parents"]}
{"id": "C44", "title": "Formula interpreter is confined", "statement": "evaluate_formula accepts a formula exactly when it is built, at every depth, from constants, names other than __builtins__, the five arithmetic operators and the two signs, and keyword-free direct calls of the whitelisted functions. Evaluating an accepted formula calls only the supplied binding of a whitelisted name or, without one, its entry in the built-in table; the result depends only on the bindings of names that occur in it; a NameError names a name that occurs and is neither bound nor in the table. A binding named like a function replaces it, and constants need not be numbers.", "quantifier": "every expression tree and every set of bindings", "why_tests_cant": "trees of arbitrary depth", "anchors": ["welleng/errors/interpreter.py:_validate", "welleng/errors/interpreter.py:evaluate_formula"]}
{"id": "C45", "title": "Duplicate depths are removed from connected plans", "statement": "Removing duplicates from connected sections given in non-decreasing depth order keeps exactly one station per rounded measured depth, the first one, in increasing depth order; rows out of depth order can keep a depth twice.", "quantifier": "every list of stations", "why_tests_cant": "lists of arbitrary length", "anchors": ["welleng/survey.py:_remove_duplicates", "welleng/survey.py:from_connections"]}
{"id": "C46", "title": "Vertical section", "statement": "get_vertical_section returns one value per station starting at 0; between two stations of equal inclination whose azimuths differ by at most pi the increment is exactly the projection of the horizontal step onto the section azimuth, and when the azimuths are given on opposite sides of north (difference above pi) the increment has the opposite sign; the query also overwrites the survey's azimuth at vertical stations.", "quantifier": "every survey, section azimuth and station pair", "why_tests_cant": "continuum of azimuths; the wrap-around at north is a measure-small region of ordinary surveys", "anchors": ["welleng/survey.py:Survey.get_vertical_section", "welleng/survey.py:Survey._get_vertical_section"]}
{"id": "C47", "title": "Arc to a target modifies the caller's vector", "statement": "get_arc with target=True builds the arc that arrives at the given position and vector: it is the ordinary arc started backwards and read from its far end. The call negates the caller's direction array in place, so making the same call twice with the same array gives a different arc.", "quantifier": "every dogleg, radius, toolface, position, direction and both call orders", "why_tests_cant": "the in-place change is only visible in call histories that reuse the array; a single-call test passes", "anchors": ["welleng/utils.py:Arc.transform", "welleng/utils.py:get_arc"]}
{"id": "C48", "title": "Two position attributes of one survey", "statement": "A survey's pos_nev differs from its n, e, tvd attributes by the exact offsets of start_xyz and grid scale factor; they agree when start_xyz is zero and the grid scale factor is 1, and not in general.", "quantifier": "every header, station list, start_xyz and start_nev", "why_tests_cant": "agreement holds for all defaults; only non-default combinations show the difference", "anchors": ["welleng/survey.py:Survey.__init__", "welleng/survey.py:Survey._min_curve"]}
{"id": "C49", "title": "Slicing a survey", "statement": "slice_survey returns the stations start..stop-1 with their depths, inclinations and positions, but re-applies the azimuth reference correction: under a true or magnetic header every grid azimuth of the slice is shifted by the convergence (minus declination) once more.", "quantifier": "every survey, slice range and header", "why_tests_cant": "only surveys with a non-grid reference and a non-zero correction are affected", "anchors": ["welleng/survey.py:slice_survey"]}
{"id": "C50", "title": "Projecting ahead", "statement": "project_to_bit/project_ahead of delta_md at dogleg severity dls in degrees per 30 units ends on the circular arc tangent to the last station with dogleg delta_md/30*dls and arc length delta_md; with dls 0 it continues straight; the projected depth is md + delta_md.", "quantifier": "every last position, unit tangent, length, severity and toolface", "why_tests_cant": "an identity over real inputs", "anchors": ["welleng/survey.py:SplitWellPath", "welleng/survey.py:project_ahead"]}
{"id": "C51", "title": "Interpolating at a true vertical depth", "statement": "When interpolate_tvd returns a node, the node is on the arc (or line) of one survey interval and its true vertical depth is the requested one, except when the requested depth is that of the point half a turn further on the interval's circle, for which a wrong station is returned.", "quantifier": "every survey with increasing depths and every requested depth", "why_tests_cant": "the excluded depth is one value per interval; sampling never hits it", "anchors": ["welleng/survey.py:Survey.interpolate_tvd"]}
{"id": "C52", "title": "Magnetic gradient magnitudes in 'deg.nT' are not converted to radians", "statement": "A JSON term whose magnitude unit is spelled 'deg.nT' (as shipped models spell it) is used without the degree-to-radian conversion that the spelling 'deg/nT' gets, so its covariance is (180/pi)^2 times that of the same term declared in 'deg/nT'.", "quantifier": "every survey, every term, every magnitude and propagation mode", "why_tests_cant": "a quantitative law over all surveys and terms", "anchors": ["welleng/errors/tool_errors.py:_MAG_UNIT_TO_BASE", "welleng/errors/tool_errors.py:ToolError._call_interpreter"]}
{"id": "C53", "title": "Repeated term names in a JSON tool model", "statement": "When a JSON tool model lists several terms with the same name, exactly the last of them contributes; with distinct names every term contributes once, in file order.", "quantifier": "every list of terms", "why_tests_cant": "inductive over the list of terms", "anchors": ["welleng/errors/tool_errors.py:_json_to_em_adapter"]}
{"id": "C54", "title": "A rejected section can make a string unusable for good", "statement": "A bottom-up string whose first section gives a top but no length raises, and every later add_section raises too; a top-down string offered a section deeper than its bottom raises, and every later add_section raises too.", "quantifier": "every string, every rejected call of these kinds and every later sequence of calls", "why_tests_cant": "quantifies over all continuations of a history", "anchors": ["welleng/architecture.py:String.add_section_top_down", "welleng/architecture.py:String.add_section_bottom_up"]}
{"id": "C55", "title": "Torque uses the contact radius of its own interval", "statement": "The torque increment of an interval should use the contact radius of the string section in that interval. It does not: radii are taken in surface-to-bit order while all other quantities run bit-to-surface, so the increment of interval m of n uses the radius of interval n-1-m and the torque is wrong for a tapered string.", "quantifier": "every radius profile of any length (exact law); one tapered string (refutation)", "why_tests_cant": "tests use strings of one diameter, for which the mirrored order cannot be seen", "anchors": ["welleng/torque_drag.py:TorqueDrag.get_forces_and_torsion"]}
{"id": "C56", "title": "Torque and drag is independent of the azimuth datum", "statement": "Adding one constant to all azimuths leaves every azimuth change unchanged, but an interval that turns across north is given an azimuth change 360 degrees away from the true one, which strictly increases the side force whenever there is tension and inclination.", "quantifier": "every azimuth list and constant; every turn across north by less than 180 degrees", "why_tests_cant": "holds for all azimuth lists; needs a well crossing north to show", "anchors": ["welleng/torque_drag.py:TorqueDrag.get_azi_delta", "welleng/torque_drag.py:force_normal"]}
{"id": "C57", "title": "Hook-load depth and friction grids", "statement": "The depths at which the string is placed are strictly increasing by at most one step, lie above the string's bottom and below its top, start within one step of the top and end exactly at the bottom; the friction factors start at the first, end at the last and increase by at most one step.", "quantifier": "every top, bottom and positive step", "why_tests_cant": "ranges over all reals; the number of values is unbounded", "anchors": ["welleng/torque_drag.py:HookLoad.get_data", "welleng/torque_drag.py:HookLoad.get_ff_range"]}
{"id": "C58", "title": "Fluid density profile conserves mass", "statement": "A density is an exact minimum (zero) of the objective solved for a depth if and only if the mass of the column at that density equals the mass of the same fluid at surface conditions, the oil and water fractions expanding with temperature and pressure down the column; at depth zero the only zero is the reference density.", "quantifier": "every fluid, applied pressure, thermal gradient, depth and density for which the phase densities stay positive", "why_tests_cant": "an integral identity over all columns; the shipped check is one example with overridden fractions", "anchors": ["welleng/fluid.py:Fluid._func", "welleng/fluid.py:Fluid._get_density", "welleng/fluid.py:Fluid.get_density_profile"]}
{"id": "C59", "title": "A survey holds exactly what it was given", "statement": "Survey accepts rows iff its unit equals the header's and is meters or feet and there are at least two rows; every per-station attribute then has one entry per row; the stored depth and inclination are those given (in radians), the stored grid, true and magnetic azimuths differ by convergence and declination and the one in the header's reference equals the input; the first position is start_nev and later ones add the minimum-curvature step; x, y, z are east, north, depth up to the start offsets; dogleg is 0 at the first station and the angle between consecutive directions after; delta_md is the first depth and then the differences.", "quantifier": "every header, row list of any length, unit, angle unit and start position", "why_tests_cant": "all lists and all headers; a slip in one attribute is hidden because most code uses another", "anchors": ["welleng/survey.py:Survey.__init__", "welleng/survey.py:Survey._min_curve", "welleng/survey.py:Survey._process_azi_ref"]}
{"id": "C60", "title": "Annular volumes add up and unit conversion is invertible", "statement": "The volume of nested annuli and of consecutive lengths add up, without an inner diameter it is the volume of the cylinder, without a length it is per unit length, it is positive exactly when the inner diameter is below the outer; linear conversion by a factor and then by its inverse is the identity and missing entries stay missing.", "quantifier": "every diameter, length, data list and non-zero factor", "why_tests_cant": "identities over all reals and lists", "anchors": ["welleng/utils.py:annular_volume", "welleng/utils.py:linear_convert"]}
{"id": "C61", "title": "Objective between stations leaves out the margin", "statement": "Between stations, the separation factor that is minimised equals the separation rule's value at the same points and covariances plus Sm divided by the uncertainty boundary: it agrees with the rule exactly when the margin is zero.", "quantifier": "every pair of points, positive semidefinite covariances, radii, k, sigma_pa and Sm", "why_tests_cant": "two independent code paths over a continuous domain", "anchors": ["welleng/clearance.py:IscwsaClearance._get_sf_min"]}
{"id": "C62", "title": "Interpolated covariances stay valid", "statement": "The covariance interpolated between two stations is symmetric and positive semidefinite when the two ends are, equals the ends at 0 and 1, its trace is the weighted mean, and it grows with the fraction when uncertainty grows along the interval.", "quantifier": "every pair of covariances and every fraction in [0,1]", "why_tests_cant": "positive semidefiniteness is a universally quantified inequality", "anchors": ["welleng/clearance.py:IscwsaClearance._interpolate_covs", "welleng/clearance.py:IscwsaClearance._get_sf_min"]}
{"id": "C63", "title": "Mesh separation factor flags collisions", "statement": "Before rounding, the mesh separation factor is in [0,1) when the meshes collide and at least 1 (or inf) when they do not, and at a fixed combined radius it grows with the gap. After rounding to two decimals a collision can be reported as 1.0.", "quantifier": "every centre distance, gap not exceeding it and penetration depth", "why_tests_cant": "case split over continuous values, rounding boundary", "anchors": ["welleng/clearance.py:MeshClearance._process_well"]}
{"id": "C64", "title": "Bearings to the offset well", "statement": "The horizontal bearing and the toolface to the closest offset point are in [0, 2pi), agree with the true direction up to half a unit of the sixth decimal of a radian, their degree versions are exactly the conversion, and the travelling-cylinder angle is in [0,360).", "quantifier": "every pair of points and every attitude", "why_tests_cant": "quadrants and wrap-around of atan2 over all directions", "anchors": ["welleng/clearance.py:IscwsaClearance._get_delta_nev_vectors", "welleng/clearance.py:IscwsaClearance._traveling_cylinder"]}
{"id": "C65", "title": "Sigmas measured from the kick-off point", "statement": "get_ref_sigma returns one row per station: zero at the kick-off index, the kick-off sigma minus the station's above it and the station's minus the kick-off sigma below it.", "quantifier": "every list of sigmas and every index in it", "why_tests_cant": "sums of differences over lists of any length", "anchors": ["welleng/clearance.py:get_ref_sigma"]}
{"id": "C66", "title": "Ring vertices lie on the circle or ellipse across the well", "statement": "With method 'circle' every ring has n_verts vertices at distance radius from the station, in the plane perpendicular to the well direction, neighbours (cyclically) 2*radius*sin(pi/n) apart. With method 'ellipse' every vertex lies in that plane on the ellipse with semi-axes h, l along the unit eigenvector (e0,e1) and its perpendicular.", "quantifier": "every n_verts, radius, semi-axes, eigenvector, inclination, azimuth, position", "why_tests_cant": "trigonometric identities over continuous inputs and an unbounded vertex count", "anchors": ["welleng/mesh.py:WellMesh._get_vertices"]}
{"id": "C67", "title": "Pedal-curve vertices bound the ellipse in their own direction", "statement": "With method 'pedal_curve' every vertex is the foot of the perpendicular from the station to a tangent of the uncertainty ellipse; the ellipse reaches exactly as far as the vertex in the direction of that vertex and no further, so the ring is the directional uncertainty used by the pedal-curve separation rule.", "quantifier": "every h,l>0, vertex count and station", "why_tests_cant": "a supremum over all points of the ellipse", "anchors": ["welleng/mesh.py:WellMesh._get_vertices"]}
{"id": "C68", "title": "Aligning rings only turns them", "statement": "Aligning neighbouring rings returns for every ring the same vertices in the same cyclic order (or that order reversed); it raises exactly when there are two or more rings with fewer than four vertices; a ring running the same way as its predecessor is never reversed for n>=6 but is wrongly reversed for n<6 when the match wraps around, and a ring running the other way is only reversed if the matched index is at least 3.", "quantifier": "every nearest-neighbour result, ring size and number of rings", "why_tests_cant": "depends on the index returned by a spatial query for every geometry", "anchors": ["welleng/mesh.py:WellMesh._align_verts"]}
{"id": "C69", "title": "Mesh faces refer to the right vertices", "statement": "When every ring has n_verts vertices, vertex r*n+a of the mesh is vertex a of ring r, the two cap centres are the first and last station and every face corner exists. With 'pedal_curve' and an odd n_verts the rings have n_verts-1 vertices, one ring's worth of faces is missing and no face touches the cap centres.", "quantifier": "every n_verts>=3, number of rings and positions", "why_tests_cant": "parametric in two sizes", "anchors": ["welleng/mesh.py:WellMesh._get_faces", "welleng/mesh.py:WellMesh._make_trimesh"]}
{"id": "C70", "title": "Targets within tolerance of the start are treated as reached", "statement": "A connection to a position that numpy.allclose cannot tell from the start position succeeds with zero curve length, zero tangent and the start measured depth as target depth. The tolerance is relative to the coordinates, so with map coordinates (northing 6000 km) a target 5 m away is silently connected with no length.", "quantifier": "every start position, target position and unit direction", "why_tests_cant": "the tolerance depends on the magnitude of arbitrary coordinates", "anchors": ["welleng/connector.py:Connector._get_distances", "welleng/connector.py:Connector._min_curve_to_target"]}
{"id": "C71", "title": "Direction-only connections turn to the requested direction", "statement": "A connection given a target direction and no position is a circular arc turning the start direction exactly into the target direction, followed by a straight section in it; the arc radius never exceeds the design radius, a requested measured depth is met exactly, and without one the arc has the design radius and no straight section follows.", "quantifier": "every start and every target direction neither parallel nor opposite", "why_tests_cant": "continuum of directions", "anchors": ["welleng/connector.py:Connector._use_method", "welleng/connector.py:Connector._min_curve"]}
{"id": "C72", "title": "A connection ends at the position asked for", "statement": "The target position of a finished hold or curve-and-hold connection is the position the caller supplied, unless that position is exactly on the start axis and given with an azimuth only (a random offset of up to 1 m per axis is then added) or a minimum-curvature connection is forced (the position is then replaced by the end of the arc).", "quantifier": "every argument combination, every random offset", "why_tests_cant": "the exceptional inputs are a measure-zero set that random tests miss", "anchors": ["welleng/connector.py:Connector._get_distances", "welleng/connector.py:Connector._use_method"]}
{"id": "C73", "title": "Hold connections end within tolerance of the target", "statement": "A connection solved as a hold keeps the start direction, meets a requested measured depth exactly, and walking its length along the start direction ends within (1e-5+1e-8) times that length of the requested position along each axis.", "quantifier": "every start and target accepted as a hold", "why_tests_cant": "worst case over a continuum of almost-aligned targets", "anchors": ["welleng/connector.py:Connector._get_method", "welleng/connector.py:Connector._use_method"]}
{"id": "C74", "title": "Curve-hold-curve solutions describe a path without kinks", "statement": "The attributes of a finished curve-hold-curve connection describe a circular arc from the start position and direction, a straight line in the direction where the arc ends, and a circular arc that ends in the target direction; the depths are the lengths of these pieces and the reported endpoint error is the distance from the end of the last arc to the target. Straight out of the final pass, the end is missed by more than 1 mm only if the miss is perpendicular to both the tangent and the target direction, or the hold has no length, or tangent and target direction are almost parallel, or the second arc would have to bend backwards.", "quantifier": "every solver behaviour that leaves the problem alone, all unit start and target directions", "why_tests_cant": "quantifies over all outcomes of an iterative solver", "anchors": ["welleng/connector.py:Connector._happy_finish", "welleng/connector.py:Connector._endpoint_rescue", "welleng/connector.py:Connector._enforce_planarity"]}
{"id": "C75", "title": "Interpolated curve-hold-curve sections follow the depth grid", "statement": "Interpolating a finished curve-hold-curve connection with a positive step lists exactly the depths of the start, the two ends of the hold, the target and every multiple of the step strictly between start and target, in non-decreasing order, with no gap longer than the step.", "quantifier": "every solver behaviour that leaves the problem alone, every positive step", "why_tests_cant": "depths and steps are reals; the grid has unboundedly many rows", "anchors": ["welleng/connector.py:Connector.interpolate", "welleng/connector.py:interpolate_curve", "welleng/connector.py:interpolate_hold"]}
{"id": "C76", "title": "When the solver moves the ends of a connection", "statement": "Starting a curve-hold-curve solve moves the target by a random offset exactly when it lies on the start axis ahead of the start, and then moves the start position exactly when it lies on the target axis behind the (moved) target; in all other cases both ends stay where the caller put them. So an ordinary connection, e.g. to a target straight below with a vertical landing direction, starts from a position the caller did not ask for.", "quantifier": "all positions, unit directions and random offsets", "why_tests_cant": "the exceptional inputs are a measure-zero set that random tests miss", "anchors": ["welleng/connector.py:Connector._get_distances", "welleng/connector.py:minimize_target_pos_and_vec_defined"]}
{"id": "C77", "title": "The batch solver agrees with the connector", "statement": "For every element, the batch curve-hold solver returns the arc-then-straight path that reaches the target at the requested radius whenever that radius does not exceed the radius of the circle tangent to the start direction through the target, NaN when it does; a target straight ahead gives a hold, a target straight behind gives NaN; and for every connection solved as curve and hold at its design radius, the batch result equals the attributes of that connection.", "quantifier": "every start, unit direction, target and radius", "why_tests_cant": "agreement of two implementations over a continuum of geometries", "anchors": ["welleng/connector.py:solve_curve_hold_batch", "welleng/connector.py:Connector"]}
{"id": "C78", "title": "EDM wellbore data", "statement": "For a wellbore with distinct ids and an ending parent chain, get_wellbore_data fails exactly when the wellbore is missing or has no well id. Otherwise every tag maps to the elements carrying the wellbore id, followed by the CD_WELL and CD_DATUM elements of its well, followed, if any parents were collected in this or an earlier call, by the survey headers and stations of all of those, and if none were, by the CD_WELL and CD_DATUM elements a second time. So the surveys returned for a wellbore can contain those of unrelated wells queried before.", "quantifier": "every document with distinct wellbore ids, every history of calls", "why_tests_cant": "depends on the whole call history and on arbitrary documents", "anchors": ["welleng/exchange/edm.py:EDM.get_wellbore_data", "welleng/exchange/edm.py:EDM.add_attributes", "welleng/exchange/edm.py:EDM.get_parents"]}
{"id": "C79", "title": "Surveys of an EDM case", "statement": "The survey assembled for a header of a case consists, when tie depths decrease along the chain of ties, of exactly the stations of each tied survey between its own tie depth and the depth above which the previous survey takes over, both included. A survey tied to nothing is empty, and the survey at the end of the chain never contributes a station, so the path above the shallowest tie depth is missing.", "quantifier": "all headers with distinct ids, all ending chains of ties, all stations", "why_tests_cant": "quantifies over chains of unbounded length and real depths", "anchors": ["welleng/exchange/edm.py:Well._get_surveys", "welleng/exchange/edm.py:Well.get_parent_surveys"]}
{"id": "C80", "title": ".wbp files written and read back", "statement": "A list of plans that fit the format can be exported, and loading the result gives as many plans in the same order with the same steps: turn points and survey points with depths, angles, rates, covariances and locations rounded to the decimals of their columns (an error of at most half a unit of the last decimal), the first turn point as tie-on, a missing method as 0. Targets come back on the first plan only, with rounded locations and all with the colour of the last one; every plan comes back with the units of the first, whatever its own units were.", "quantifier": "every non-empty list of plans with any number of steps and targets, every comment, every conversion of text that understands decimals", "why_tests_cant": "round trip over lists of unbounded length and all numbers that fit", "anchors": ["welleng/exchange/wbp.py:export", "welleng/exchange/wbp.py:load", "welleng/exchange/wbp.py:add_step", "welleng/exchange/wbp.py:add_targets"]}
{"id": "C81", "title": ".wbp location columns", "statement": "A location written by export is read back, rounded to two decimals, exactly when its y text has at most 12 and its z text at most 10 characters; otherwise the columns run together and loading raises. |y| < 10^8 - 1 and |z| < 10^6 - 1 are enough.", "quantifier": "every location", "why_tests_cant": "quantifies over all real coordinates", "anchors": ["welleng/exchange/wbp.py:add_location", "welleng/exchange/wbp.py:WellPlan._add_location_data", "welleng/exchange/wbp.py:WellPlan._add_target_location"]}
{"id": "C82", "title": ".wbp targets that cannot be loaded", "statement": "A file with a geometry line (G:) in a TARGETS section is never loaded. A file exported from a plan with a target that has no colour is never loaded.", "quantifier": "every file with such a line; every plan, comment and position of the target", "why_tests_cant": "the line may be anywhere in a file of any length", "anchors": ["welleng/exchange/wbp.py:WellPlan._add_target_geometry", "welleng/exchange/wbp.py:WellPlan._add_target_color", "welleng/exchange/wbp.py:add_targets"]}
{"id": "C83", "title": "Sensor error weights are the exact rates of the surveyed angles", "statement": "For a tool at any attitude off the vertical in any gravity and magnetic field with a horizontal part, the inclination and azimuth errors that the functions ABZ, ASZ, MBZ (and AMIL), MSZ, ABXY_TI1/2 and MBXY_TI1/2 assign to a station are the derivatives of the inclination and azimuth computed from the six sensor readings with respect to the bias or scale-factor error of that sensor; for the cross-axial sensors this holds at every toolface, with x the combination sin tf TI1 + cos tf TI2 and y the combination cos tf TI1 - sin tf TI2.", "quantifier": "every header with gravity and horizontal field, every station with sin(inc) > 0, every toolface, every survey and magnitude", "why_tests_cant": "an identity between derivatives over all attitudes and fields", "anchors": ["welleng/errors/tool_errors.py:ABZ", "welleng/errors/tool_errors.py:ASZ", "welleng/errors/tool_errors.py:MBZ", "welleng/errors/tool_errors.py:MSZ", "welleng/errors/tool_errors.py:ABXY_TI1", "welleng/errors/tool_errors.py:ABXY_TI2", "welleng/errors/tool_errors.py:MBXY_TI1", "welleng/errors/tool_errors.py:MBXY_TI2", "welleng/errors/tool_errors.py:AMIL"]}
{"id": "C84", "title": "Toolface-independent terms reproduce the sensors at every toolface", "statement": "The covariance of the errors due to the x and y biases of the accelerometers, or of the magnetometers, is the sum of the covariances of the two toolface-independent terms, at every toolface. The variance in any direction due to the x and y scale factors, averaged over a full turn of the toolface, is the sum of the variances of the three toolface-independent terms. Both hold with and without axial correction.", "quantifier": "every header, every station off the vertical (with axial correction: not level in magnetic east or west), every toolface, every direction", "why_tests_cant": "quantifies over all toolfaces and involves an integral over a turn", "anchors": ["welleng/errors/tool_errors.py:ABXY_TI1", "welleng/errors/tool_errors.py:ABXY_TI2", "welleng/errors/tool_errors.py:ASXY_TI1", "welleng/errors/tool_errors.py:ASXY_TI2", "welleng/errors/tool_errors.py:ASXY_TI3", "welleng/errors/tool_errors.py:MBXY_TI1", "welleng/errors/tool_errors.py:MBXY_TI2", "welleng/errors/tool_errors.py:MSXY_TI1", "welleng/errors/tool_errors.py:MSXY_TI2", "welleng/errors/tool_errors.py:MSXY_TI3", "welleng/errors/tool_errors.py:ABIXY_TI1", "welleng/errors/tool_errors.py:ABIXY_TI2", "welleng/errors/tool_errors.py:ASIXY_TI1", "welleng/errors/tool_errors.py:ASIXY_TI2", "welleng/errors/tool_errors.py:ASIXY_TI3", "welleng/errors/tool_errors.py:MBIXY_TI1", "welleng/errors/tool_errors.py:MBIXY_TI2", "welleng/errors/tool_errors.py:MSIXY_TI1", "welleng/errors/tool_errors.py:MSIXY_TI2", "welleng/errors/tool_errors.py:MSIXY_TI3"]}
{"id": "C85", "title": "Weights with axial correction", "statement": "When the axial magnetometer is replaced by the value for which the computed horizontal and vertical field are nearest to the reference field, the weights ABIXY, MBIXY, ASIZ, MFI (per unit of field) and MDI (per radian of dip) are the exact derivatives of the computed inclination and azimuth. ABIZ is not: its azimuth weight is the true one times the square of gravity, so it is right exactly when gravity is 1 or the true rate is 0.", "quantifier": "every header, every station off the vertical and not level in magnetic east or west, every toolface", "why_tests_cant": "an identity between derivatives of an implicitly defined minimiser over all attitudes", "anchors": ["welleng/errors/tool_errors.py:ABIXY_TI1", "welleng/errors/tool_errors.py:ABIXY_TI2", "welleng/errors/tool_errors.py:MBIXY_TI1", "welleng/errors/tool_errors.py:MBIXY_TI2", "welleng/errors/tool_errors.py:ASIZ", "welleng/errors/tool_errors.py:MFI", "welleng/errors/tool_errors.py:MDI", "welleng/errors/tool_errors.py:ABIZ", "welleng/errors/tool_errors.py:_funky_denominator"]}
{"id": "C86", "title": "Misalignment is the same in every direction across the hole", "statement": "The misalignment terms XYM1 to XYM4 together tilt the surveyed direction with the same variance in every direction across the hole, (a sin inc)^2 + (b cos inc)^2 for magnitudes a and b; XYM3L with XYM4L do so with the variance max(1, 10/d) (cos inc)^2 for an interval d. XYM3E with XYM4E do so exactly when cos(azimuth) is not negative or sin(azimuth) is 0.", "quantifier": "every station off the vertical, every direction across the hole, every magnitude and interval", "why_tests_cant": "quantifies over all directions and attitudes", "anchors": ["welleng/errors/tool_errors.py:XYM1", "welleng/errors/tool_errors.py:XYM2", "welleng/errors/tool_errors.py:XYM3", "welleng/errors/tool_errors.py:XYM4", "welleng/errors/tool_errors.py:XYM3L", "welleng/errors/tool_errors.py:XYM4L", "welleng/errors/tool_errors.py:XYM3E", "welleng/errors/tool_errors.py:XYM4E"]}
{"id": "C87", "title": "Errors at vertical stations", "statement": "At a vertical station inside the survey, XYM3 moves the position due north and XYM4 due east by half the distance between its neighbours times the magnitude, and stations near the vertical differ from this by at most the sine of the inclination; CNA and ABXY_TI2/ABIXY_TI2 move it to the right of the azimuth. Covariances of stations already surveyed do not change when stations are added below, unless the last station is vertical: then its covariance is missing and appears later. XYM3E and XYM4E are scaled by cos(azimuth)|cos(azimuth)|, so they vanish at a vertical station whose azimuth is east or west. XYM3L and XYM4L count the first interval in full and use different intervals for the factor of the first row, so north and east variances of a vertical well differ. In the first row of ABIXY_TI2 (and ABXY_TI2 unless rev 4) only the east part counts the first interval in full.", "quantifier": "every survey, header and magnitude, every vertical station inside it", "why_tests_cant": "every length of survey and every position of the vertical station", "anchors": ["welleng/errors/tool_errors.py:XYM3", "welleng/errors/tool_errors.py:XYM4", "welleng/errors/tool_errors.py:XYM3E", "welleng/errors/tool_errors.py:XYM4E", "welleng/errors/tool_errors.py:XYM3L", "welleng/errors/tool_errors.py:XYM4L", "welleng/errors/tool_errors.py:CNA", "welleng/errors/tool_errors.py:ABXY_TI2", "welleng/errors/tool_errors.py:ABIXY_TI2"]}
{"id": "C88", "title": "Course length errors", "statement": "XCLA displaces each station to the right and XCLH to the high side, by magnitude times interval times the larger of the change (sin inc times the sine of the azimuth change, however it wraps, or the inclination change) and tortuosity times the interval; these directions are unit vectors across the hole and perpendicular to each other. With random propagation the covariance is the sum of the squares of these displacements. XCL is XCLA for the code XCLA and XCLH otherwise.", "quantifier": "every survey, tortuosity and magnitude", "why_tests_cant": "every azimuth pair, including across north, and surveys of any length", "anchors": ["welleng/errors/tool_errors.py:XCL", "welleng/errors/tool_errors.py:XCLA", "welleng/errors/tool_errors.py:XCLH"]}
{"id": "C89", "title": "Totals of a tool model", "statement": "A tool model gives covariances exactly when every inclination is below its maximum and every code of the model can be evaluated. The total at each station is then the sum of the covariances of all codes, it is the sum of the random, systematic, global and within-pad totals, all five are symmetric and positive semi-definite, and at the first station all are zero.", "quantifier": "every list of codes with any functions, magnitudes and propagations, every survey", "why_tests_cant": "lists of codes of any length and surveys of any length", "anchors": ["welleng/errors/tool_errors.py:ToolError", "welleng/errors/tool_errors.py:ToolError.call_func"]}
{"id": "C90", "title": "When a weight function can be evaluated", "statement": "For a header with gravity and horizontal field, at least three stations with inclinations in [0, pi] and azimuth reference true or grid, 35 of the functions always give finite errors. The 12 axial-correction functions do so exactly when no station is level in magnetic east or west. XYM3E, XYM4E, XYM3L, XYM4L do so exactly when measured depths strictly increase. Other names raise. CNA raises at a vertical station for any other azimuth reference, and ABIXY_TI2, XYM3L, XYM4L (and ABXY_TI2 unless rev 4) raise for a survey of fewer than three stations with a vertical one.", "quantifier": "every survey, header, magnitude and function name", "why_tests_cant": "exact characterisation over all surveys and names", "anchors": ["welleng/errors/tool_errors.py:ToolError.call_func", "welleng/errors/tool_errors.py:_funky_denominator", "welleng/errors/tool_errors.py:CNA", "welleng/errors/tool_errors.py:XYM3L", "welleng/errors/tool_errors.py:XYM4L"]}
{"id": "C91", "title": "Propagation mode of an error term", "statement": "The error made for a code carries that code and the propagation asked for, except that XYM2 is always systematic and XYM4L always random, whatever the model says.", "quantifier": "every function, code, survey and propagation", "why_tests_cant": "every function and propagation", "anchors": ["welleng/errors/tool_errors.py:XYM2", "welleng/errors/tool_errors.py:XYM4L", "welleng/errors/tool_errors.py:ToolError.call_func"]}
{"id": "C92", "title": "Toolface is the direction in which the hole bends", "statement": "At every station of a survey except the last, the toolface lies in (-pi, pi], and the arc to the next station starts bending exactly in the direction of that toolface (0 is the high side, a quarter turn is to the right), whenever the two directions differ by less than half a turn. At the last station it lies in [0, 2 pi) and is the direction in which the last arc is bending at its end. Where a section is straight the toolface is 0.", "quantifier": "every survey and every section with a dogleg below half a turn", "why_tests_cant": "ranges over all pairs of attitudes, including vertical and wrapped azimuths", "anchors": ["welleng/survey.py:Survey._get_toolface_and_rates"]}
{"id": "C93", "title": "Build and turn rates at the ends of a survey", "statement": "At the last station the reported build and turn rates are the absolute rates of change of inclination and azimuth along the last arc, in degrees per 30 m or per 100 ft, unless that station is vertical. At the first station the build rate is 0, and the turn rate is 0 unless that station is vertical, where it is nan. Everywhere they are |dls cos(toolface)| and |dls sin(toolface)/sin(inclination)|; the turn rate of a vertical station is nan when dls sin(toolface) is 0 and infinite otherwise. dls is the angle between the directions per 30 m or 100 ft.", "quantifier": "every survey; the rates of change are those of any differentiable inclination and azimuth along the arc", "why_tests_cant": "an identity between derivatives along an arc for every pair of attitudes", "anchors": ["welleng/survey.py:Survey._get_toolface_and_rates", "welleng/survey.py:Survey._curvature_to_rate"]}
{"id": "C94", "title": "Build and turn rates inside a survey", "statement": "At a station with a section before and after it, the reported build and turn rates are those of the next section multiplied by the ratio of the curvature of the previous section to that of the next. They are therefore the rates of the next section exactly when both sections have the same curvature (for a station where the inclination changes); a well of constant plane whose curvature drops to a third has its rate reported three times too large.", "quantifier": "every survey, every interior station off the vertical", "why_tests_cant": "exact characterisation over all surveys", "anchors": ["welleng/survey.py:Survey._get_toolface_and_rates"]}
{"id": "C95", "title": "Projection to the bit", "statement": "For a survey in meters whose last station is off the vertical, projecting by a distance without other arguments gives the point and direction that distance further along the last arc, and along the line if the last section is straight (any unit). With an explicit dls and toolface it gives the arc of that curvature in degrees per 30 toward that toolface. For a survey in feet the last curvature is applied 10/3 times too strongly. When the last station is vertical the projection bends toward the true bearing minus the reported azimuth.", "quantifier": "every survey with at least two stations, every distance", "why_tests_cant": "ranges over all last sections and distances", "anchors": ["welleng/survey.py:Survey.project_to_bit", "welleng/survey.py:project_ahead"]}
{"id": "C96", "title": "Radius and centre of curvature", "statement": "For every section that bends by less than half a turn, the plane normal is perpendicular to the arc, the reported radius is that of the arc, the radius vector points from the station to the centre of the circle, and the second half of the circle centres consists of the centres of the sections. The first half uses the radius of the previous section, so it is the centre of the section exactly when both sections have the same curvature, and missing for the first section. Straight sections have an infinite radius and no normal, radius vector or centre.", "quantifier": "every survey, every section", "why_tests_cant": "ranges over all sections of surveys of any length", "anchors": ["welleng/survey.py:get_circle_radius", "welleng/survey.py:Survey._get_toolface_and_rates"]}
{"id": "C97", "title": "Survey header values and their sources", "statement": "Creating a header fails with an assertion exactly when the latitude, longitude or azimuth reference is not allowed, else with a value error exactly when a date is given in another form, else with a type error exactly when dip or declination is neither given nor available. Values given are kept (converted to radians when in degrees), and then do not depend on the field calculator. Values omitted come from the calculator at the date, else from the calculator at today's date, else from the defaults. An omitted dip is the opposite of what giving the same number gives, and agrees with the dip reported for a location. The header's date is the given one exactly when the calculator is absent, or its first lookup succeeds, or the date is today. Radians and degrees agree for arguments that are given; the default vertical limit does not depend on the unit. A depth unit is kept for m, meters, ft, feet and lost otherwise.", "quantifier": "every argument list, calculator behaviour and date", "why_tests_cant": "the calculator can fail or answer in any way at any time", "anchors": ["welleng/survey.py:SurveyHeader.__init__", "welleng/survey.py:SurveyHeader._get_mag_data", "welleng/survey.py:SurveyHeader._get_date", "welleng/survey.py:SurveyParameters.get_factors_from_x_y"]}
{"id": "C98", "title": "Joining surveys end to end", "statement": "Joining surveys succeeds exactly when the first survey is not referenced to magnetic north, is in meters, and either it is alone or all surveys carry covariances; otherwise it raises AttributeError (magnetic reference, or no covariances on the first), TypeError (no covariances on a later one) or AssertionError (feet). The result has the header and start of the first survey, and the depths, inclinations, azimuths (in the reference of the first), radii and covariances of all of them, each later survey without its first station. Rows are exactly those of the pieces if and only if the first reference is grid or all convergences are equal. If every piece starts where the one before ended, the positions are those of the pieces: a grid survey in meters cut at any interior station and joined again has its rows and positions back.", "quantifier": "every list of surveys, of any lengths", "why_tests_cant": "any number of pieces of any length, with or without covariances", "anchors": ["welleng/survey.py:splice_surveys", "welleng/survey.py:SurveyData"]}
{"id": "C99", "title": "Covariances and radii of an interpolated survey", "statement": "When the depths of the interpolated survey are more than 1e-4 apart, every station of it gets the radius of the original station at or above it, and the covariance interpolated linearly in depth between that station and the next; at an original station it is that station's covariance. Interpolated covariances stay symmetric and positive semi-definite, and the variance in any direction stays within the range of the originals. When an original station is lost by rounding, stations further down are given covariances extrapolated from the wrong pair, which can be negative.", "quantifier": "every survey with increasing depths and no reversal, every step, every covariance and radius per station", "why_tests_cant": "a loop invariant over arbitrary station and grid depths", "anchors": ["welleng/survey.py:interpolate_survey"]}
{"id": "C100", "title": "Covariances and radius given to a survey", "statement": "Given covariances in one frame, a survey carries covariances in both frames for every station, each the rotation of the other with that station's attitude, and the start covariance is added to every station in the NEV frame. Given none it carries none, even when a start covariance is given. Given both they are kept as they are. The radius defaults to 0.3048 for every station, a single value is used for every station, a list of one per station is kept, and any other length is refused.", "quantifier": "every survey, covariances, start covariance and radius", "why_tests_cant": "any number of stations and any matrices", "anchors": ["welleng/survey.py:Survey._get_errors", "welleng/survey.py:Survey._get_radius"]}
{"id": "C101", "title": "Control points of a survey", "statement": "The control points of a survey are its first station (twice), every station where the bending plane changes beyond the tolerances or (unless told otherwise) the dogleg severity differs after rounding to two decimals, and its last station, in order of depth; severities more than 0.01 apart are always separated. Each control point has the depth, inclination, azimuth and location of its station, and the dogleg severity, build rate, turn rate (shortest way round) and, on a circular section, the toolface of the section above it. Surveying the control points again succeeds exactly for surveys in meters; for a grid-referenced survey whose sections between control points are straight or circular it gives back the positions of the control points, so that the misfit is the tolerance itself; with zero tolerances and severities compared, sections of less than half a turn are straight or circular. Without comparing severities two arcs in one plane are merged and the resurveyed end is elsewhere; with another azimuth reference the azimuths of the resurvey are off by the convergence and declination.", "quantifier": "every survey, tolerances and option", "why_tests_cant": "any number of stations in each section and any tolerance", "anchors": ["welleng/survey.py:get_sections", "welleng/survey.py:TurnPoint", "welleng/survey.py:get_data", "welleng/survey.py:func"]}
{"id": "C102", "title": "Tortuosity indices", "statement": "The tortuosity index at a station is n/(n+1) times kappa times coeff over the depth below the first station times the sum over the sections so far of (length along hole over straight distance, minus one), with n the number of sections so far; the modified index is n/(n+1) times kappa times that depth times the sum of (1/straight distance - 1/length). Sections end where the bending plane (or severity, if a tolerance is given) changes. Both are zero at the first station and, when the grid scale factor is between 0 and 1, never negative; with scale factor 1 they are zero at a station exactly when the hole is straight down to it. With a scale factor above 1 a straight hole has a negative index. The index is proportional to coeff, the modified index does not depend on it. A keyword kappa is ignored (the code reads kapa), and the method of a survey ignores its severity tolerance.", "quantifier": "every survey with increasing depths whose stations differ in position from the start of their section, every tolerance and keyword", "why_tests_cant": "a sum over arbitrary sections of arbitrary surveys", "anchors": ["welleng/survey.py:tortuosity_index", "welleng/survey.py:modified_tortuosity_index", "welleng/survey.py:_get_ti_data", "welleng/survey.py:Survey.tortuosity_index"]}
{"id": "C103", "title": "Directional difficulty index", "statement": "The index at a station is the base-10 logarithm of depth times horizontal distance times accumulated dogleg (degrees) over vertical depth, with lengths in feet, and zero where that is not positive or the vertical depth is zero. Lengths are always converted as if in meters, so for a survey in feet the index is too large by log10(1/0.3048).", "quantifier": "every survey and station", "why_tests_cant": "a sum over any number of stations", "anchors": ["welleng/survey.py:directional_difficulty_index"]}
{"id": "C104", "title": "Maximum curvature method", "statement": "For a survey in meters the maximum curvature method succeeds exactly when every section has a finite dogleg severity whose sum with the noise is not zero; for other units it raises AssertionError. The result keeps every original station with its depth, angles and interpolated flag, starts at the same place, is grid referenced, and has one added station in every section, flagged as interpolated. The added station has the direction reached by bending from the upper station with the noisy severity over half the section; while that bend is at most half a turn it is at mid-depth, and the first half section is the circular arc with that severity. Without noise, when all sections bend by less than half a turn and stations are inclined (or vertical with azimuth zero), the positions of the original stations are unchanged. The caller's header is changed to grid reference and nothing else. When the noisy bend exceeds half a turn the added station is deeper than the next station, and from a vertical station with another azimuth the added bend goes off in the wrong direction.", "quantifier": "every survey and noise", "why_tests_cant": "surveys with any number of stations and any severities and noise", "anchors": ["welleng/survey.py:Survey.maximum_curvature"]}
{"id": "C105", "title": "Dropping off to an inclination", "statement": "For any node and any answer of the optimiser within its bounds, drop_off with a positive dogleg severity succeeds exactly when the maximum length is absent or not negative (otherwise ValueError; zero severity gives no finite path). The first node it returns is the end of a circular arc of the design radius that starts at the given node (missing position, direction or depth meaning origin, straight down and zero), stays in the vertical plane of the node's azimuth, and is no longer than the maximum length; a second node, present exactly when the rest of the length exceeds the tolerance, is straight ahead of it and at the start depth plus the maximum length. If the optimiser finds a minimum, every returned node has the inclination closest to the target that can be reached within the length, and some answer attains the target exactly when design radius times change of inclination fits in the length. A best answer need not be the short way round: with no maximum length a full turn of 330 degrees upwards is an equally good answer to dropping 30 degrees. A negative severity is accepted and gives depths that decrease.", "quantifier": "every node, target inclination, severity, maximum length and tolerance, and every behaviour of the optimiser", "why_tests_cant": "the result depends on a numerical optimiser whose answers and local minima cannot be enumerated", "anchors": ["welleng/connector.py:drop_off"]}
{"id": "C106", "title": "Extending to a vertical depth", "statement": "Without a target inclination, and with an exact optimiser, extend_to_tvd from a node that is not horizontal returns one straight connection from the node to the target depth when that depth lies ahead; when it lies behind, the connection has no length and is refused if no severity is given. With a target inclination it returns one or two connections, the first the design arc from the node in its vertical plane and the second straight ahead to the chosen length, provided the arc is less than half a turn; if the inner optimiser gives the shortest best answer, inclination and target are below horizontal and the depth is ahead, the last connection ends at the target depth, and beyond the end of the arc (by more than the tolerance) it ends at the target inclination and at the depth along hole that arc and tangent add up to. A missing node raises TypeError although the documentation gives it a default, and a node without position or direction never succeeds. The maximum length is not respected, and a best inner answer of more than half a turn makes the path miss the target depth.", "quantifier": "every node, target depth and inclination, severity and length, and every behaviour of the optimisers", "why_tests_cant": "nested numerical optimisers whose answers cannot be enumerated", "anchors": ["welleng/connector.py:extend_to_tvd", "welleng/connector.py:drop_off"]}
{"id": "C107", "title": "Connecting a list of points", "statement": "connect_points returns, for points that are not integers, one connection fewer than the shorter of the list of points and the list of severities. Connection i starts exactly at point i, in the direction and at the depth along hole where the previous one ended (the first in the normalised start direction at md_start), ends exactly at point i+1, uses the severity listed with point i+1, ends in a unit direction and never reduces the depth along hole. It is straight if the target is straight ahead; a turn at the given severity and a straight line if the target lies outside the turning circle; and a single tighter arc through the target if it lies inside. The only failures are IndexError for no points, no finite direction for a zero start direction, AssertionError for a severity that is not positive, and no finite result for a target that is at the start, on the line of the start direction behind it, at its level, or on the edge of the turning circle; everything before the failing connection is solved, and the final check of the reached position never fails. Integer points cut the start direction to whole numbers, so that an inclined start direction becomes zero and nothing is found; a severity given as an int or numpy number instead of a python float yields no connection at all, without an error, for any number of points.", "quantifier": "every list of points, start direction, severities, coordinate convention and start depth, and every random number used inside", "why_tests_cant": "chains of any length, each link depending on the exact end of the previous one", "anchors": ["welleng/connector.py:connect_points", "welleng/connector.py:Connector"]}
{"id": "C108", "title": "Turning a survey into a plan", "statement": "For a survey of three or more stations and a positive design severity, survey_to_plan always terminates, with a plan unless a Connector raises. The plan is a chain: every section is the Connector from the end of the previous section to a station, the stations are strictly increasing, at least two apart from the start, and the last one is the last station; there are fewer sections than stations. Each section runs to the station before the first jump of the score by at least the tolerance, jumps in the last two stations not counting. A design severity that is not positive raises AssertionError, no station IndexError, a single station is joined to itself, and a survey of two stations always raises UnboundLocalError. When the very first score jumps, the section runs two stations on but the next section is scored from one station on; and the score of a section can be arbitrarily large, since only its steps are compared.", "quantifier": "every survey, tolerance and severity, every behaviour of Connector and of the scores (including nan)", "why_tests_cant": "termination and coverage for surveys of any length and any sequence of scores", "anchors": ["welleng/connector.py:survey_to_plan", "welleng/connector.py:_get_section"]}
{"id": "C109", "title": "Stations added where the separation factor dips", "statement": "For a reference survey in meters, with strictly increasing depths and no full reversal between stations, a clearance run that looks for minima never fails on the reference side. The refined reference contains every surveyed station, its position, covariance and hole size, unchanged and in order; every other station is marked as interpolated. An added station belongs to a station whose separation factor is lower than the one before and the one after it, lies strictly between the two neighbours of that station, at the depth the search returned, and at exactly the position and in the direction the survey itself gives for that depth; its hole size is that of the next surveyed station below it and its covariance is zero. Every such dip whose search does not end on a station gets one, and there are at most as many as dips. The refined depths are again strictly increasing.", "quantifier": "every survey, covariance, hole size, offset well, rule setting, closest-point optimiser, and every bounded search that does not end higher than it started", "why_tests_cant": "stations are inserted one at a time into a survey that is rebuilt each time, for any number of dips", "anchors": ["welleng/clearance.py:IscwsaClearance.get_sf_mins", "welleng/clearance.py:IscwsaClearance._get_sf_min"]}
{"id": "C110", "title": "Results of a refined clearance run", "statement": "The results of a refined run at the surveyed stations are exactly those of the run without refinement. At an added station the uncertainty of the reference well is taken as zero: compared with the same station with any covariance, the boundary is no larger and, when the wells are apart, the factor no smaller (strictly larger if that covariance counts). Hence an added station does not report the minimum that was found: there are wells for which every reported factor is above one although the rule, applied at the added station with the uncertainty that all neighbouring stations have, gives a factor below one.", "quantifier": "every survey, covariance, hole size, offset well, setting, optimiser and search as in C109", "why_tests_cant": "a comparison of two runs over all wells and all covariances", "anchors": ["welleng/clearance.py:IscwsaClearance.get_sf_mins", "welleng/survey.py:get_node"]}
{"id": "C111", "title": "Hole sizes and units of a clearance run", "statement": "A survey has one hole radius per station: 0.3048 if none is given, the given number (or list of one) everywhere, or the given list, which must have as many entries as stations. Clearance always takes these, so its own Rr and Ro arguments never have an effect. The combined hole size at a station is the reference radius there plus the offset radius at the nearest surveyed offset station. With a header that is not in meters a run that looks for minima raises exactly when some station would be added, and otherwise changes nothing.", "quantifier": "every radius argument, number of stations, Rr and Ro, and every pair of wells", "why_tests_cant": "an argument without effect and a failure condition are statements about all calls", "anchors": ["welleng/survey.py:Survey._get_radius", "welleng/clearance.py:Clearance._get_radii", "welleng/clearance.py:IscwsaClearance.get_sf_mins"]}
{"id": "C112", "title": "Reference below the kick-off point", "statement": "With no kick-off depth, or one not below the first station, a clearance run uses the reference as it is. Otherwise it uses the stations at or below the kick-off depth: their depths, inclinations, positions and hole sizes are unchanged, their covariances are the ones computed for the part below the kick-off (or the tail of the given ones), and the azimuths are shifted once more by the difference between the header reference and grid, so they are unchanged for a grid header; then the part is exactly the Survey of its own rows from its first position. The run fails exactly when every station but possibly the last is above the kick-off depth.", "quantifier": "every survey with strictly increasing depths, covariances, hole sizes and kick-off depth", "why_tests_cant": "a statement about every cut of surveys of any length", "anchors": ["welleng/clearance.py:Clearance._get_ref", "welleng/clearance.py:Clearance._get_kop_index"]}
{"id": "C113", "title": "A whole clearance run", "statement": "If no covariance is negative in any direction, sigma_pa is not zero and the closest-point search does not end worse than it started, a clearance run gives a finite separation factor at every reference station. It uses a point that lies on the offset well path, on an interval next to the nearest surveyed offset station and no further away than any surveyed offset station; the two pedal radii are the standard deviations along the line between the points, with the offset covariance interpolated linearly at that point; and the factor is (distance - radii - Sm) / (k sqrt(ref^2 + off^2 + sigma_pa^2)).", "quantifier": "every pair of wells, settings and optimiser of that kind", "why_tests_cant": "holds for all wells, all covariances and every optimiser", "anchors": ["welleng/clearance.py:IscwsaClearance.__init__", "welleng/clearance.py:IscwsaClearance._get_closest_points", "welleng/clearance.py:IscwsaClearance._get_PCRs"]}
{"id": "C114", "title": "Stations added at regular vertical depths", "statement": "For a survey in metres and a positive step, interpolate_survey_tvd ends, provided the survey suits the method (stations further apart than 1e-4 + 1e-5 md, turns neither vanishing nor all but half a turn, no level diametrically opposite a station on the circle of its arc, no level point that close to the next station). The depths of the result are strictly increasing. The stations not marked as interpolated are those of the survey, in order, at their depths and in their directions, at their positions relative to the first station. Every station of the result is the point the survey itself gives for that measured depth, in its direction, relative to the first station (the start position is dropped). Every station marked as interpolated has a vertical depth that differs from the first level by a whole number of steps.", "quantifier": "every such survey of any length, every start and step", "why_tests_cant": "a loop that runs until no level is left, for every path", "anchors": ["welleng/survey.py:interpolate_survey_tvd", "welleng/survey.py:get_node_tvd", "welleng/survey.py:interpolate_tvd"]}
{"id": "C115", "title": "Every level passed gets a station", "statement": "If the first station lies at the first level or less than a step below it, and every station that lies exactly on a level is passed through (the well deepens strictly both before and after it, or climbs strictly both before and after it; from a first station on a level it deepens), then for each pair of consecutive stations and each level between their depths the result has a station on that part of the path at exactly that vertical depth.", "quantifier": "every survey that suits the method as in C114, every start and step meeting these conditions, every interval and level", "why_tests_cant": "a statement about every level of every interval", "anchors": ["welleng/survey.py:interpolate_survey_tvd"]}
{"id": "C116", "title": "Levels passed without a station", "statement": "On a well that never climbs, a first level a step or more above the first station gives no station at all, and no added station is shallower than the first level plus one step, so the level start itself never gets one. On a well that never deepens, a first level at or below the first station (the default) gives no station at all. With a header in feet interpolate_survey_tvd never returns a survey.", "quantifier": "every survey that suits the method as in C114, every start and step", "why_tests_cant": "an absence over all wells", "anchors": ["welleng/survey.py:interpolate_survey_tvd"]}
{"id": "C117", "title": "The survey drawn from connections lies on them", "statement": "from_connections, given connections each of which starts where, how and at the depth at which the one before ends, and each of which turns through less than half a circle (or not at all), returns a survey provided the depths concerned are more than 0.1 mm apart. Its stations are exactly at the ends of the connections, the ends of their turns and the multiples of the step in between, each once and in increasing order. At every station the inclination and azimuth are the direction of the connection at that depth and the n, e, tvd position is the point of the connection at that depth, both turned by what the azimuth reference of the header adds, relative to the start. Exactly the stations at ends of connections are not marked as interpolated. A connection the library computes qualifies if it is a hold to a depth or a point straight ahead, a turn to a direction, or a curve (with or without a straight piece) to a target ahead of the start or further than two radii off its axis.", "quantifier": "every list of such connections, every positive step or none, every header and start", "why_tests_cant": "all lists of connections, all steps, and each station of each survey", "anchors": ["welleng/survey.py:from_connections", "welleng/connector.py:interpolate_well", "welleng/connector.py:get_interpolate_hold", "welleng/connector.py:get_min_curve"]}
{"id": "C118", "title": "Turns of more than half a circle are drawn to the wrong side", "statement": "A connection to a target within two radii of the axis and not ahead of the start turns through more than half a circle, and no other does. from_connections then draws the turn mirrored: every station before the end of the turn heads along, and (stations closer than half a circle) lies on, the circle on the side away from the target. Without a step the drawn survey ends 4 pi r sin(dogleg/2) / (2 pi - dogleg), more than four radii, away from the target. A single arc to a target behind the start is drawn mirrored over its whole length.", "quantifier": "every such connection (the sine of the turn at most -1e-10), every step, every start", "why_tests_cant": "a statement about every target in a region and every station drawn", "anchors": ["welleng/connector.py:interpolate_curve", "welleng/survey.py:from_connections"]}
{"id": "C119", "title": "Projecting a survey to a target", "statement": "project_to_target returns the survey drawn from one connection, or two when delta_md is given, joined end to end; the first starts at the last station: its pos_nev position, direction and depth. With one connection that turns through less than half a circle, on a grid survey, the result starts at that position and ends at the target. With a section of length delta_md at curvature dls to the bit, the first connection ends delta_md deeper and in the direction project_ahead gives, but at the position project_ahead gives if and only if the design curvature does not exceed dls. The design curvature has no other effect: without delta_md it has none, and the turn to the target is always made at 3 degrees per 30 m.", "quantifier": "every survey, target, design curvature, section, curvature, toolface and step", "why_tests_cant": "every combination of survey and target; the absence of an effect for every value", "anchors": ["welleng/survey.py:project_to_target", "welleng/survey.py:project_ahead", "welleng/survey.py:Survey.project_to_target"]}
{"id": "C120", "title": "The azimuth kept by set_vertical_section", "statement": "A survey built from the same stations with the header that set_vertical_section leaves behind has the vertical section along the argument taken as radians. So it agrees with the values set_vertical_section stored when deg is False, and not in general when the argument is in degrees (the default).", "quantifier": "every survey and azimuth", "why_tests_cant": "all surveys and azimuths", "anchors": ["welleng/survey.py:Survey.set_vertical_section", "welleng/survey.py:Survey._get_vertical_section"]}
{"id": "C121", "title": "Surveying deeper does not change the uncertainty already computed", "statement": "For a tool model and a survey of at least three stations: if the model gives covariances for a survey with more stations appended then it gives covariances for the survey itself, and at every station of it the total covariance and its random, systematic, global and within-pad parts are the same for both. The one exception is the last station of the shorter survey when it is vertical and the model has an XYM3, XYM4, CNA, ABXY_TI2 or ABIXY_TI2 source. There the shorter survey lacks the contribution of a vector whose length is half the last interval times the magnitude of the source as an angle: for a random source its outer product is missing, otherwise the vector itself is missing from the accumulated one. JSON models have no exception. With two stations, at least one of them vertical, ABIXY_TI2 fails although it works for three.", "quantifier": "every tool model, header, survey, survey extension and station; every source for a single error source", "why_tests_cant": "every pair of a survey and an extension of it, and every combination of sources", "anchors": ["welleng/errors/tool_errors.py:ToolError", "welleng/errors/tool_errors.py:ToolError.call_func", "welleng/error.py:ErrorModel._generate_error", "welleng/error.py:ErrorModel._e_NEV_star"]}
{"id": "C122", "title": "Which shipped error models can be used, and for which surveys", "statement": "A name is recognised exactly when it is one of the names get_error_models lists or the deprecated \"ISCWSA MWD Rev5\". For every recognised name but fifteen, the model file of that name is loaded (the file of \"ISCWSA MWD Rev5.11\" calls itself \"ISCWSA MWD Rev5\"), and for a survey of at least three stations with inclinations from 0 to 180 degrees it gives finite errors and covariances exactly when no station reaches 180 degrees, no station of a \"+AX\" model is level and due east or west, measured depths strictly increase for the models whose errors grow with short intervals (MWD+, EMS+, Rev5), and, for BLIND and UNKNOWN, the azimuth reference is true or grid or no station is vertical. Exceptions: six listed names have no file (FileNotFoundError); the four INC-ONLY models always fail; the five gyro names load either the fixed or the floating rig file depending on the order in which the operating system lists the directory, give covariances without an exception exactly below an inclination of 89 degrees (150 for GYRO-NS-CT; C152 says when they are finite), and CB_Film_GMS always fails. Only \"ISCWSA MWD Rev4\" uses the rev4 rule for the first station. What such a model computes is what the terms of its file give with the tortuosity its header states, with one degree per 100 ft when the header only mentions an XCL tortuosity, and with none when no term needs it.", "quantifier": "every name, header, survey, azimuth reference, and order of the files on disk", "why_tests_cant": "every survey for each of 62 names and every directory order", "anchors": ["welleng/error.py:ErrorModel.__init__", "welleng/error.py:get_error_models", "welleng/errors/tool_errors.py:ToolError.__init__", "welleng/errors/tool_errors.py:_resolve_json_model", "welleng/errors/tool_index.yaml", "welleng/errors/tool_codes", "welleng/errors/iscwsa_json"]}
{"id": "C123", "title": "The diagnostic table lists every source and adds up to the total covariance", "statement": "make_diagnostic_data gives one entry per distinct measured depth. If no later station has the same depth, the entry of a station lists for every error source the six distinct components (nn, ee, vv, ne, nv, ev) of its covariance at that station, and under TOTAL those of the total covariance of the survey. Of stations that share a depth only the last is listed. It fails exactly for a model without sources, such as ZERO-ERROR, and a survey with stations.", "quantifier": "every survey, tool model and station", "why_tests_cant": "every survey and every set of error sources", "anchors": ["welleng/error.py:make_diagnostic_data", "welleng/error.py:get_errors"]}
{"id": "C124", "title": "Anti-collision results do not depend on where north points or where the origin is", "statement": "Changing every azimuth of a survey by the same angle (whatever the azimuth reference and unit) and its start by the corresponding turn and any shift gives the same survey turned and shifted, with the same doglegs; negating the azimuths, convergence and declination gives its mirror image. If the reference and the offset well are both turned, mirrored or shifted like that, their covariances with them, and the offset well nowhere reverses its direction, the separation run gives the same results (distances, projected uncertainties, hole sizes, separation factors) at every station, with or without refinement at the minima (for the latter the reference must not reverse direction either, be in meters and have strictly increasing depths). Toolfaces are the same, and horizontal bearings change by that angle up to rounding to a millionth radian and full turns.", "quantifier": "every pair of surveys, covariances, hole sizes, rotation or mirror image, shift and minimiser", "why_tests_cant": "all wells in all frames", "anchors": ["welleng/clearance.py:IscwsaClearance", "welleng/clearance.py:Clearance._get_delta_nev_vectors", "welleng/survey.py:Survey.__init__", "welleng/survey.py:Survey._process_azi_ref"]}
{"id": "C125", "title": "What a mesh-clearance run reports for each section", "statement": "A mesh-clearance run gives one entry per section between consecutive reference stations, with the collision answer for the mesh of that section. For surveys with strictly increasing depths and no reversal, in every section but the first (and in the first as well if both surveys refer to grid north): the reported reference depth lies in the section and the reported reference point is where the well is at that depth, no farther from the closest mesh point than the middle of the section; the offset station is a nearest one to the closest point on the offset mesh, the reported offset depth lies in an interval next to it, the reported offset point is where the offset well is at that depth, no farther than the middle of any adjacent interval; the centre distance, factor (rounded to two decimals), hole size and inferred radii are those of these points. Bearings lie in 0 to 360 degrees and point from the reference to the offset point. If the reference survey refers to true north, the first section is taken in the wrong direction (for a convergence w a level 100 m section is reported 100 sin(w/2) m away from the well, for every w between 0 and 180 degrees); without return_data every section is.", "quantifier": "every pair of surveys, collision answers, minimiser that stays in bounds and does not get worse, and settings", "why_tests_cant": "all pairs of wells and all answers of the collision library; the error needs a header that is not grid", "anchors": ["welleng/clearance.py:MeshClearance._process_well", "welleng/clearance.py:MeshClearance._get_closest_nev", "welleng/clearance.py:MeshClearance._fun", "welleng/survey.py:slice_survey", "welleng/survey.py:_interpolate_survey"]}
{"id": "C126", "title": "EDM wellbores by name or id, and the wellbore graph", "statement": "When every wellbore element has a name and an id and ids differ, get_wellbore by name gives the id of the last wellbore of the document with that name and fails if there is none; by id it gives the name of the wellbore with that id, but only if no later wellbore has the same name: an earlier wellbore with a reused name cannot be found by its id. The wellbore graph has as edges the pairs of parent and child of the wellbores that are the last of their name, and as nodes these wellbores and their parents; when names differ, the edges are exactly the parent relation of the document and every wellbore is a node.", "quantifier": "every document in which wellbores have names and ids, every name and id", "why_tests_cant": "all documents; reuse of a name loses a wellbore without an error", "anchors": ["welleng/exchange/edm.py:EDM.get_wellbore", "welleng/exchange/edm.py:EDM.get_wellbore_ids", "welleng/exchange/edm.py:EDM._wellbore_id_to_name", "welleng/exchange/edm.py:EDM.get_wellbore_graph"]}
{"id": "C127", "title": "Hole sections and cases of an EDM well", "statement": "get_hole_section_data returns an entry for exactly the section groups named anywhere in the data, holding for each table that has rows of the group the last such row only (earlier rows are lost). get_data returns exactly the rows with the given id in order, or None if there are none, and fails exactly when the table is missing or one of its rows lacks the id. make_case succeeds exactly when every case row has an id, one has the given id, each table needed for an id of the (last such) case row exists with that id in all its rows (CD_ASSEMBLY included), and a survey header has its wellbore id: in particular an unknown case id always raises. The case then has the attributes of that row, and for each id the rows of the table with that id; its assembly attribute holds the assembly components, not the assembly.", "quantifier": "every table of rows, every group, id and case id", "why_tests_cant": "all data sets; the rows that are dropped and the failures depend on which tables and ids happen to be present", "anchors": ["welleng/exchange/edm.py:Well.get_hole_sections", "welleng/exchange/edm.py:Well.get_hole_section_data", "welleng/exchange/edm.py:Well.get_data", "welleng/exchange/edm.py:Well.make_case", "welleng/exchange/edm.py:Well._set_attribute"]}
{"id": "C128", "title": "Pore pressure, fracture gradient and temperature profiles", "statement": "If every row of a profile table has a group, a numeric depth and a numeric value, get_ppfpt_data returns for exactly the groups that occur the (tvd, value) pairs of the rows of the group, ascending in depth and in document order for equal depths. The profile is None exactly when the table is missing or the first row that cannot be read lacks a field: one such row loses all groups of the table; a field that is not a number raises instead. The tables attached to a case hold the rows of each group in the same order when every row has a numeric depth; if one row has no depth, every group is left in document order. A case gets an attribute for exactly the tables whose tag mentions PORE, FRAC or CD_TEMP and not TEMPLATE, named after the tag in small letters without its first three characters; the last table wins, and a table that cannot be sorted makes the case fail.", "quantifier": "every list of rows of the three tables, with any number reader", "why_tests_cant": "all data sets, orders and ties; one incomplete row changes the result for all groups", "anchors": ["welleng/exchange/edm.py:Well.get_ppfpt_data", "welleng/exchange/edm.py:Well._get_ppfpt_data", "welleng/exchange/edm.py:Well._sort_ppfpt_data", "welleng/exchange/edm.py:Well._get_ppfpt"]}
{"id": "C129", "title": "Degrees, minutes and seconds printed and read back", "statement": "For non-negative whole degrees and minutes, seconds printed in decimal notation and any direction word, dms_from_string of what pprint_dms returns gives back exactly these values, with symbols or with words, except that three values printed with symbols are read back as four, the fourth being the double quote. The sign of the degrees is always lost. Seconds printed in exponent notation (below 0.0001, such as 5e-12) are read as their mantissa (5). If the minutes are printed as a float (4.0, as in a row of decimal2dms without direction), nothing is read: the result is None. The printed text has the degree sign, the apostrophe and the double quote, or the words deg, min and sec; the same text written by hand is read alike. Reading does not depend on capital or small letters: texts that differ only in case give the same numbers, or both nothing, and the direction is returned as written.", "quantifier": "every number of degrees and minutes, every seconds text, every direction without white space, both styles", "why_tests_cant": "all values; the shipped test compares with zip and so does not see the fourth value", "anchors": ["welleng/utils.py:pprint_dms", "welleng/utils.py:dms_from_string"]}
{"id": "C130", "title": "Saving a survey as a listing of control points", "statement": "For a survey in meters, and whatever tolerance the optimiser stops at, export_csv (and so Survey.save) gives one row per control point, from the first to the last station; the columns are the depth, inclination, azimuth, northing and easting of its station and minus its vertical depth, then dogleg severity, toolface, build and turn rate. Written to a file, the lines are the version, the author, one \"name, value\" line per header attribute, an empty line, the column names and one line per row, each number with the requested decimals and within half a unit of the last one; inf and nan by name. For a survey in feet the call always raises. The documented tolerance is not met: for a survey of two arcs in one plane the listing holds only the two ends for every tolerance the optimiser can choose, and the listed points end more than 10 m deeper than the survey.", "quantifier": "every survey built from depths and angles, every result of the optimiser, tolerance, option, number of decimals, author and header texts without line breaks", "why_tests_cant": "all surveys and header texts; any outcome of the numerical optimiser", "anchors": ["welleng/survey.py:export_csv", "welleng/survey.py:Survey.save", "welleng/survey.py:get_data", "welleng/survey.py:func", "welleng/exchange/csv.py:export_csv"]}
{"id": "C131", "title": "A survey as a table", "statement": "survey_to_df has one row per station: depth, inclination and both azimuths in degrees, x, y, z, and dogleg severity of the station. Its northing and easting are the start plus the grid scale factor times the distance from the start plus the start of x, y, z, so they are the northing and easting of the survey only if the scale factor is 1 and x, y, z start at zero; TVDSS is the vertical depth plus the start of z (positive downwards, the listing of C130 has it negative). Toolface is in [0, 360) and differs from that of the survey by whole turns. Rates are those of the survey, undefined ones 0; at a vertical station below a bend with the toolface off the plane the turn rate shown is the largest float.", "quantifier": "every survey built from depths and angles, every station", "why_tests_cant": "all stations of all surveys with all headers and starting points", "anchors": ["welleng/survey.py:survey_to_df"]}
{"id": "C132", "title": "Error terms and header of a Model sheet", "statement": "parse_model_sheet succeeds exactly if every row has a cell, every row with something in column A has a column B and every term row has twelve columns. The terms are, in order, one for every row with a number in column D and something in column E, and each field is the cell of its column (text fields empty for an empty cell, code and propagation without white space around, columns beyond the end empty). A header attribute is the value of the last row whose label, without colons, square brackets and white space around, is its name; other labels are kept as extras in the same way.", "quantifier": "every sheet (any rows, any cells: empty, number, truth value, text or date), every conversion between numbers and texts", "why_tests_cant": "all sheets of all sizes", "anchors": ["welleng/errors/iscwsa_ingest.py:parse_model_sheet", "welleng/errors/iscwsa_ingest.py:ErrorTerm", "welleng/errors/iscwsa_ingest.py:_HEADER_KEYMAP", "welleng/errors/iscwsa_ingest.py:_to_float"]}
{"id": "C133", "title": "The dictionary of codes made from the error terms", "statement": "to_legacy_codes_dict has, for every name, the function (hyphens as underscores), magnitude, unit and propagation of the last term of that name, XCLL being named XCLA, and no other names; magnitudes with a unit in degrees are converted to radians and the unit renamed; an unknown propagation is systematic. The header has the attributes that are not empty. Terms with different codes all have an entry unless XCLA and XCLL both occur: then the earlier of the two is lost. The propagation of a term in full is random, systematic, global or within_pad for R, S, G, W and its own letter otherwise.", "quantifier": "every list of error terms and every header", "why_tests_cant": "all lists of terms, codes, units and functions", "anchors": ["welleng/errors/iscwsa_ingest.py:to_legacy_codes_dict", "welleng/errors/iscwsa_ingest.py:ErrorTerm.magnitude_si", "welleng/errors/iscwsa_ingest.py:ErrorTerm.unit_si", "welleng/errors/iscwsa_ingest.py:PROPAGATION_MAP"]}
{"id": "C134", "title": "The revision of a workbook", "statement": "The revision is the text, without white space around, of the first among the lines of column A that have the highest revision number; a line counts if it is the word Revision, white space, digits, a full stop and digits, with nothing but white space around; numbers are compared as integers (5.11 is later than 5.2). It is None exactly if no line counts.", "quantifier": "every column of cells", "why_tests_cant": "all texts, matched by a backtracking pattern", "anchors": ["welleng/errors/iscwsa_ingest.py:_latest_readme_revision", "welleng/errors/iscwsa_ingest.py:_REVISION_RE"]}
{"id": "C135", "title": "Stations and reference values of a Wellpath sheet", "statement": "parse_wellpath_sheet succeeds exactly if no one of the first twelve rows is a single non-empty cell. There is one station for every row from the third on with a number in column E, in order; inclination, azimuth and depth are those of columns F, G, H: nan if the cell is no number, but 0 if the row has no such column; the toolface is nan in both cases. Name, depth unit, foot factor and each of latitude, g, btotal, dip and declination are those of the last of the first twelve rows that gives one (the name of a reference value stands before the bracket, in any case of letters), else the defaults.", "quantifier": "every sheet (any rows, any cells: empty, number, truth value, text or date), every conversion between numbers and texts", "why_tests_cant": "all sheets, labels and values", "anchors": ["welleng/errors/iscwsa_ingest.py:parse_wellpath_sheet"]}
{"id": "C136", "title": "Covariances of the TOTALS and Validation sheets", "statement": "parse_totals_sheet succeeds exactly if there is a second row and every data row (a number in its first cell, from the third row on) has a convertible cell in the depth column. It has one entry per data row, and each covariance is the value in the first column of that name, nan if there is none. parse_validation_sheet has one entry for every row with depth and source: its values are those of the first six and of the next six columns with a covariance name, in the order of the sheet. The order is not checked: with EE before NN the first value is not NN.", "quantifier": "every sheet (any rows, any cells: empty, number, truth value, text or date), every conversion between numbers and texts", "why_tests_cant": "all sheets and all orders of their columns", "anchors": ["welleng/errors/iscwsa_ingest.py:parse_totals_sheet", "welleng/errors/iscwsa_ingest.py:_extract_cov_columns", "welleng/errors/iscwsa_ingest.py:parse_validation_sheet"]}
{"id": "C137", "title": "Error-source sheets of a workbook", "statement": "An error-source sheet has a depth per data row and a block per group of columns, a group being a merged range of the first row with a label or a labelled cell outside such ranges, taken from left to right; the block is named by the label, for the second group of that label label_2, and so on; it has the values of each named column (the last one of a name). A block is there for every group with a named column unless a later group is given the same name: labels A, A, A_2 lose the second. load_iscwsa_example reads as sources exactly the sheets named by an error-term code other than seven reserved names, cut to the number of stations (not cut if there are none), and takes its other parts from the sheets Model, Wellpath, TOTALS, Validation and Readme.", "quantifier": "every workbook with distinct sheet names and merged ranges that do not overlap, every content of the sheets", "why_tests_cant": "all workbooks", "anchors": ["welleng/errors/iscwsa_ingest.py:parse_error_source_sheet", "welleng/errors/iscwsa_ingest.py:_merged_header_spans", "welleng/errors/iscwsa_ingest.py:load_iscwsa_example"]}
{"id": "C138", "title": "The report of a comparison with an example workbook", "statement": "validate_workbook runs the error model on the stations of the Wellpath sheet with depths in metres and the reference values of that sheet. It compares exactly the rows of the Validation sheet whose source is modelled and whose depth is that of a station (as numpy.isclose sees it, the first such station), in order; a row is ok exactly if all six covariances are within the absolute tolerance of the calculated values, or all with a target that is a number other than zero are within the relative one. The errors reported are the greatest absolute and relative differences. So a row whose targets are all zero or nan is ok whatever was computed. The totals are compared row by row, by number and not by depth: the total of a workbook whose only row is at the second station is compared with the first. The list of missing sources has the codes of the Model sheet that are not modelled, once each, in alphabetical order. It raises exactly if the workbook cannot be read or has no stations, the engine fails, there are more totals than stations, or a compared row has not six values.", "quantifier": "every workbook, error model, engine and tolerances", "why_tests_cant": "all workbooks and all covariances computed", "anchors": ["welleng/errors/iscwsa_validate.py:validate_workbook", "welleng/errors/iscwsa_validate.py:_build_survey", "welleng/errors/iscwsa_validate.py:_relative_error", "welleng/errors/iscwsa_validate.py:SourceCompare", "welleng/errors/iscwsa_validate.py:TotalsCompare"]}
{"id": "C139", "title": "Pass, fail and exit code of a comparison", "statement": "source_pass_fail has exactly the sources of the compared rows, true exactly if all rows of the source are ok. The exit code is 0 if all compared rows are ok and 1 else. It says nothing about the totals (0 although a total fails), about missing sources, or about rows that were not compared: a workbook of which no row is comparable passes.", "quantifier": "every report", "why_tests_cant": "all reports", "anchors": ["welleng/errors/iscwsa_validate.py:ValidationReport.source_pass_fail", "welleng/errors/iscwsa_validate.py:main"]}
{"id": "C140", "title": "Stations read from a diagnostic file", "statement": "parse_copsegrove returns one station per station line (depth, the word Inc:, inclination, Az (True):, azimuth, each number with digits before and after the point), in order. A station has, for every code, the three first numbers of the last svy line with that code between the station line before and its own, and no other codes. A code is a capital letter followed by capital letters, digits and hyphens, so the labels that are to be passed over (Total, Depth, ...) never get that far. What follows the last station line is lost.", "quantifier": "every sequence of lines", "why_tests_cant": "all files, matched by backtracking patterns", "anchors": ["welleng/errors/copsegrove.py:parse_copsegrove", "welleng/errors/copsegrove.py:_SIG_LINE_RE", "welleng/errors/copsegrove.py:_STATION_HDR_RE"]}
{"id": "C141", "title": "One term across the stations", "statement": "per_term_sigmas returns depths, inclinations, azimuths and sigmas of exactly the stations that mention the term, in order and of one length.", "quantifier": "every list of stations, every term", "why_tests_cant": "all lists", "anchors": ["welleng/errors/copsegrove.py:per_term_sigmas"]}
{"id": "C142", "title": "Verdicts of formulas against a diagnostic file", "statement": "validate_random_terms returns one result per term in order: DEFERRED exactly for systematic, global and well terms, UNKNOWN_PROP for other modes than random, INTERP_FAIL if a formula fails, NOT_IN_COPSEGROVE if no station mentions the term. Else MATCH exactly if at all stations that mention it the absolute values of the inclination, azimuth and depth formulas times the magnitude are within the tolerance of the high-side, lateral and along-hole sigmas of the file, undefined values not counting unless the first one is undefined; NEAR_MATCH if not within the tolerance but within five times it; the difference reported is the greatest one if all are finite. A term with an undefined value can so be a MATCH.", "quantifier": "every file, every list of terms, every evaluation of formulas, every tolerance", "why_tests_cant": "all files and values, nan included", "anchors": ["welleng/errors/copsegrove_validate.py:validate_random_terms"]}
{"id": "C143", "title": "Verdicts of formulas against the weight functions", "statement": "For every term compare_model calls the weight function named by the term (else the name of the term; underscores for hyphens) with the magnitude in radians for deg, deg/hr and deg/nT and as it is else, and the propagation mode in lower case (systematic if unknown); the verdict is INTERP_FAILED exactly if a formula fails, NO_LEGACY if the function is missing or fails, MATCH exactly if every value at every station differs by less than 1e-10 and is finite, NEAR_MATCH by less than 1e-6; the difference reported is the greatest one. The tolerances rtol and atol play no part: a formula off by 5e-11 where the function is zero is a MATCH.", "quantifier": "every term, every evaluation, every weight function", "why_tests_cant": "all formulas, functions and stations", "anchors": ["welleng/errors/conformance.py:compare_model", "welleng/errors/conformance.py:_classify", "welleng/errors/conformance.py:_legacy_eval_term", "welleng/errors/conformance.py:_interp_eval_term"]}
{"id": "C144", "title": "The survey on which torque and drag is calculated", "statement": "For a survey in metres with increasing depths and no leg that turns back, add_survey_points_from_strings makes a survey exactly if every section of the well bore and of the string has a bottom, none below the last station. It has all stations of the survey and one at each bottom that is not yet a station (at the first station for a bottom above it), in order of depth, each on the course of the survey with its direction there and its position counted from the start of the survey; its depths need not be distinct (a casing and a string with the same bottom). The index of the string is one more than the number of stations above its bottom. The header of the given survey then says grid. A survey in feet always fails, and its header says grid all the same.", "quantifier": "every survey, well bore and string", "why_tests_cant": "all trajectories and section depths", "anchors": ["welleng/torque_drag.py:TorqueDrag.add_survey_points_from_strings", "welleng/torque_drag.py:TorqueDrag.__init__"]}
{"id": "C145", "title": "The workbook of the standard set of wellpaths", "statement": "import_iscwsa_collision_data returns the sheets whose last word is well, in order. Each has, from the rows from 17 on with a number in column B, the columns B to J as MD to sigmaA; the reference well gives the rule from I4 to I8; every other well has the factors from row 5 of column O of the sheet named by its first five characters and clearance, blank or not, so their number need not be that of the stations and two wells may share them. It raises exactly if a sheet name is blank or a clearance sheet is missing. make_survey fails for all imported data.", "quantifier": "every workbook with distinct sheet names", "why_tests_cant": "all workbooks", "anchors": ["welleng/io.py:get_standard_data", "welleng/io.py:get_well_data", "welleng/io.py:acr_setup", "welleng/io.py:get_clearance_data", "welleng/io.py:make_survey", "welleng/io.py:import_iscwsa_collision_data"]}
{"id": "C146", "title": "Scenes of well meshes", "statement": "make_trimesh_scene keeps the names and order of a dictionary of meshes and fails for the list its documentation asks for. transform_trimesh_scene with a scale other than 0 raises exactly for an origin given as an array; else it keeps names, order and triangles, and each vertex is moved so that the origin is at zero, lengths are divided by the absolute scale, volumes by its cube with their sign (for a positive scale nothing is mirrored) and greater depth is lower along the second axis. The reduction asked for has no effect.", "quantifier": "every scene, origin, scale and reduction", "why_tests_cant": "all meshes", "anchors": ["welleng/mesh.py:make_trimesh_scene", "welleng/mesh.py:transform_trimesh_scene"]}
{"id": "C147", "title": "Targets", "statement": "A Target is made exactly if it is a circle with radius, an ellipse with radius_1, radius_2 and res or a rectangle with pos1 and pos2, and no other geometry; a polygon, although listed, raises KeyError. plot_data draws a circle at the position of the target with its radius and raises for every other shape.", "quantifier": "every shape and keyword arguments", "why_tests_cant": "all sets of keywords", "anchors": ["welleng/target.py:Target.__init__", "welleng/target.py:Target.plot_data"]}
{"id": "C148", "title": "Turning a plan into a survey", "statement": "wbp_to_survey never returns a survey: it raises for every plan, for want of a name with fewer than two steps, of sections with two, and else, when all connections and the first survey succeed, because it passes that survey on where connections are expected. Which failure is raised says exactly how far it got: the legs it asks for start at the second step, taken as north, east and depth, and each later leg starts where the one before it ended and is given the step's depth, angles and curvature (1e-5 if that is missing or not positive).", "quantifier": "every plan, whatever connectors, surveys and coordinates do", "why_tests_cant": "all plans", "anchors": ["welleng/exchange/wbp.py:wbp_to_survey", "welleng/survey.py:from_connections"]}
{"id": "C149", "title": "Rewriting a workbook formula as python", "statement": "Before a weighting formula is evaluated it is rewritten word by word: a whole word that is one of the thirteen known function names and is followed, after any blanks, by an opening bracket is replaced by its python name and the blanks are dropped; every ^ becomes **; everything else is copied. No ^ is left, and rewriting the result again changes nothing. Names are known in the spelling of the table only: SIN( is copied unchanged.", "quantifier": "every text", "why_tests_cant": "all texts", "anchors": ["welleng/errors/interpreter.py:_rewrite_excel_to_python", "welleng/errors/interpreter.py:evaluate_formula"]}
{"id": "C150", "title": "Plans do not depend on the origin or on where north points", "statement": "If start, target and azimuths are given in a frame turned about the vertical and moved, Connector gives the same outcome: the same kind of connection or the same exception, the same depths, dog leg and lengths, with positions moved and directions turned (the random shift turned too), provided that the comparisons within a tolerance come out alike (they look at each coordinate by itself) and that no azimuth is taken over from a vertical start given as a direction. So do the stations of from_connections and of interpolate_survey without any proviso, and solve_curve_hold_batch for every rotation and mirror image. Without the provisos it is false: a target 30 m away is connected from the origin, and taken for the start, with no length, at coordinates of 6000 km; a vertical start given as a direction with a target inclination alone is steered to the north of any frame.", "quantifier": "every argument list, angle, translation, random shift, chain of connections and step", "why_tests_cant": "all frames and arguments", "anchors": ["welleng/connector.py:Connector.__init__", "welleng/connector.py:Connector._get_distances", "welleng/connector.py:solve_curve_hold_batch", "welleng/survey.py:from_connections", "welleng/survey.py:interpolate_survey"]}
{"id": "C151", "title": "The formulas of the JSON tool models against the functions of the same names", "statement": "Every one of the 96 error terms in the shipped JSON tool models belongs to one of these groups. For 38 weighting functions the formulas give, for every survey, the same error as the function of that name used by the YAML models, whatever the magnitude and propagation (for XYM2 only when it is systematic; for ABXY-TI2, CNA, XYM3 and XYM4 only when no station is vertical), provided that gravity, the magnetic field and its horizontal part are not zero. Exceptions: with a vertical station the formulas of ABXY-TI2, CNA, XYM3 and XYM4 divide by zero and their errors are not finite, where the functions have a rule for it; the azimuth error of ABIZ is that of the function divided by the square of gravity; AMIL has the opposite sign and the same covariance; eleven functions (ABIXY-TI1, ABIXY-TI2, MFI, XCLA, XCLH, XYM3E, XYM4E, GXY-GD, GXY-GRW, GXY-RN, GZ-GD), and no other, use names that have no value, so that at every station of every survey the formulas fail to evaluate and the term silently contributes nothing; twelve gyro functions have formulas only. The names in a formula stand for the measured depth, inclination, true, magnetic and grid azimuth, vertical depth, gravity, dip, field (50000 when it is zero), rotation of the earth, latitude and pi/180. A power in a formula applies before a sign in front of it, before products and sums, groups from the right, takes a signed exponent, and is the real power wherever the base is positive or the exponent whole (no value at 0 to a negative exponent, nor for a negative base and an exponent that is not whole).", "quantifier": "every shipped term, header, latitude, survey, magnitude, propagation and azimuth reference", "why_tests_cant": "all surveys and headers for 96 terms", "anchors": ["welleng/errors/tool_errors.py:ToolError._call_interpreter", "welleng/errors/tool_errors.py:ToolError.call_func", "welleng/errors/interpreter.py:evaluate_formula", "welleng/errors/interpreter.py:translate_excel_formula", "welleng/errors/iscwsa_json"]}
{"id": "C152", "title": "The gyro models with the formulas they ship", "statement": "For inclinations from 0 to 180 degrees, gravity not zero and a latitude off the poles, an ErrorModel with one of the five gyro names gives finite covariances exactly when the name is not CB_Film_GMS, every inclination is below 89 degrees (150 for GYRO-NS-CT), for CB_Film_GSS no station below the first is vertical, and for GYRO-NS-CT no station below the first is exactly level, whichever of the two files of that name is found first. In each of the ten files three to seven terms (tortuosity XCLA and XCLH, gyro random noise, drift and random walk, XYM3E and XYM4E) contribute nothing: the covariances are those of the model without them.", "quantifier": "every order of the files, header, latitude, survey and azimuth reference", "why_tests_cant": "all surveys and directory orders", "anchors": ["welleng/error.py:ErrorModel.__init__", "welleng/errors/tool_errors.py:ToolError._call_interpreter", "welleng/errors/iscwsa_json"]}
{"id": "C153", "title": "The older class for the MWD models against the tool models", "statement": "Whenever ErrorModel with the Rev4 model gives covariances, iscwsaMwd for the same survey with its Rev4 model gives the same total covariances. For Rev5 it does not: if the second station is not vertical, the total of the tool model is that of the older class plus the part by which the declination term (0.21 degrees in the one, 0.2 degrees in the other) differs, 1 - (0.2/0.21)^2 of the covariance of that term, which is not zero in general. If the second station is vertical, in addition the term ABXY-TI2 of the tool model is larger at that station, and only there, by half the course length times the magnitude times the cosine of the azimuth over gravity, towards the east. Any other model name raises.", "quantifier": "every header, survey, azimuth reference and order of the tool files", "why_tests_cant": "all surveys; the repository compares each class with a few published wells", "anchors": ["welleng/errors/iscwsa_mwd.py:iscwsaMwd.__init__", "welleng/errors/iscwsa_mwd.py:iscwsaMwd.call_func", "welleng/errors/iscwsa_mwd.py:iscwsaMwd.ABXY_TI2", "welleng/errors/error_codes.yaml", "welleng/errors/tool_errors.py:ToolError"]}
{"id": "C154", "title": "Distances, depths and turns along a well", "statement": "In a Survey whose measured depths do not decrease and in which no two neighbouring stations point in opposite directions, two stations are never further apart than the hole between them is long. If the depths increase, the distance equals the length exactly when all stations from the one to the other point the same way; the vertical depth increases from station to station while all inclinations are below 90 degrees, decreases while all are above, and stays the same while all are 90 degrees. The angle between the directions at two stations is at most the sum of the doglegs between them, and distances are the same in x, y, z as in north, east and vertical depth. Converting all depths and the start positions to another unit multiplies every position by the same factor and changes no angle. Between stations as well: interpolation finds a point at exactly the depths from the first to the last station, and any two points found so are no further apart than their depths.", "quantifier": "every survey, pair of stations, header, start position and factor", "why_tests_cant": "all surveys of any length", "anchors": ["welleng/survey.py:Survey.__init__", "welleng/survey.py:Survey._min_curve", "welleng/utils.py:MinCurve", "welleng/utils.py:min_curve_step", "welleng/utils.py:get_dogleg"]}
{"id": "C155", "title": "The scripts that write the tool codes and the index", "statement": "Reading a Model sheet with either script gives, for every code named in column E from row 4 on (XCLL counting as XCLA), the function, magnitude, unit and propagation of the last row that names it, angles converted to radians, and no other code; it fails exactly when a row taken into account lacks a text in column G or K, or has no number for a magnitude in degrees (the OWSG script passes over rows without a code). On sheets laid out regularly the result is the same dictionary, in the same order, as the one the newer reader makes; it differs where column D has no number or the propagation letter has a space beside it. The header gives every label of column A the value of its last row. A gyro heading gives a sub-dictionary of the indented rows below it; an empty cell in column A right below them stops the OWSG script. The index has the last row of every key, and looking up a short name undoes listing them when they differ. The list of sheets to ignore has no effect. The run over the workbook gives, for every tool of the index in order, header and codes of the sheet of its name, and raises exactly when one of them is missing or cannot be read.", "quantifier": "every sheet (rows and cells of any kind), index and list of ignored names", "why_tests_cant": "all sheets", "anchors": ["welleng/errors/extract_owsg_codes_generic.py:extract_codes", "welleng/errors/extract_owsg_codes_generic.py:extract_header", "welleng/errors/extract_owsg_codes_generic.py:make_index", "welleng/errors/extract_owsg_codes_generic.py:get_index", "welleng/errors/extract_iscwsa_codes.py:extract_codes", "welleng/errors/extract_iscwsa_codes.py:extract_header", "welleng/errors/iscwsa_ingest.py:parse_model_sheet"]}
{"id": "C156", "title": "The option closest_approach of a connection", "statement": "Connector(closest_approach=True) gives the same as False for every connection that is not a single arc to a target the design curvature cannot reach, and the same errors. For such a target it aims at the point nearest to the target on the sphere of the design radius r around a pivot at distance r from the start; that point exists exactly when no component of the way to the target, and no component of its cross product with the start direction, is zero and the target is not the pivot. The option therefore fails with nan for every such target when the start is vertical, or when the target is in an axis plane with the start; where it succeeds and the critical radius rc of the new target is at most r, the path is one turn of radius rc to it; where r is at most rc, a turn of radius r through the reported dogleg ends (1-r/rc) of the distance short of the reported end. The option does not in general find a closest approach at the design curvature: there are targets (on the sphere around the pivot) for which it changes nothing and turns with a radius less than r.", "quantifier": "every set of arguments of a connection, and every pair of random offsets of a target straight ahead", "why_tests_cant": "all starts, targets and curvatures", "anchors": ["welleng/connector.py:Connector._closest_approach", "welleng/connector.py:Connector._use_method"]}
{"id": "C157", "title": "The solver of curve-hold-curve connections", "statement": "Each half of a pass of the solver is an exact turn and straight line to the point it aims at, with the design radius or, where that does not reach, the largest radius that does (less the tolerance); there is only one such turn. The point between the hold and the second turn does not move in a pass exactly when the two turns and the hold form a path from the start to the target in the target direction: a point that does not move (with a hold longer than zero) gives two circular arcs and a straight line that meet without a kink, with the reported depth, and every such path with radii within reach is a fixed point, from which the loop ends after its second pass with that path. The loop makes at most max_iterations passes and ends earlier only when the direction has settled; the running minimum of the radius is never negative and never grows. The first point is the middle of the two curve-and-hold solutions when both turns are then within reach, and otherwise one of four points at one radius ahead of the start and two to its side, where a radius up to 5/4 of the design reaches; the first of them the second turn reaches, or else the best. Every one of these four points is one for which the formula of the angle is 0/0: the first half pass then takes no turn and a hold of one radius, although the exact turn is a right angle. The solver is called at most 3 + max_iterations times, once when the first call meets the design, and whatever it returns the attributes describe a path without a kink from the start in the target direction with ordered depths, which misses the target by at most as much as the last solution.", "quantifier": "every start, target, directions, radii and tolerance; every random offset; every number of passes; for the calls every solver that leaves the inputs alone and every stopping test", "why_tests_cant": "all geometries, any number of passes and calls", "anchors": ["welleng/connector.py:minimize_target_pos_and_vec_defined", "welleng/connector.py:Connector._target_pos_and_vec_defined", "welleng/connector.py:Connector._get_pos2"]}
{"id": "C158", "title": "Accuracy of the dogleg and the ratio factor in rounded arithmetic", "statement": "On every machine whose operations and library functions each have a relative error of at most u (binary floating point of 53 digits with nearest rounding is one, with u = 2^-53), get_dogleg returns the angle between the two directions with a relative error of at most 16u/(1-16u), however small the angle is, for inclinations from 0 to pi, differences of inclination and azimuth of at most 2.9 radians and turns of at most 1.4 radians; it is never negative and zero exactly when the turn is zero. For any azimuths from 0 to 2 pi, also across north, the error is at most 12u/(1-12u) of the angle plus 15u; the relative statement is false there: a rounding of the azimuth difference can lose a turn of size u altogether. The ratio factor has a relative error of at most 27u/(1-27u), also across north. The angle by arccos of a dot product, as the connector takes it, is zero for every turn of up to 1e-8 radians from the vertical, where get_dogleg keeps its relative accuracy. The cosine of the angle taken with arccos is within 4u of the true one, whatever becomes of the angle itself.", "quantifier": "every machine with relative errors at most u (u up to 1/1000), every pair of stations with inclinations from 0 to pi and turns up to 1.4 radians", "why_tests_cant": "all angles, however small, and every accurate machine; a test compares with one result of the same arithmetic", "anchors": ["welleng/utils.py:get_dogleg", "welleng/utils.py:get_rf", "welleng/connector.py:Connector._happy_finish"]}
{"id": "C159", "title": "Accuracy of positions in rounded arithmetic", "statement": "On every machine whose operations each have a relative error of at most u, the position that minimum curvature computes for station k differs in each coordinate from the exact one by at most g (4/3 L + S), where g = n u / (1 - n u) with n = 36 + k, L is the measured depth from the first station and S the largest coordinate of the start. It holds for all surveys whose depths do not go back, with turns of at most 1.4 radians between stations, also across north. With binary floating point of 53 digits this is at most two millionths of the depth unit for wells of up to 10 000 units and 1000 stations that start at coordinates up to 10 000 000.", "quantifier": "every machine with relative errors at most u, every survey of any length with mild turns, every start", "why_tests_cant": "surveys of any length, every accurate machine", "anchors": ["welleng/utils.py:MinCurve", "welleng/utils.py:min_curve_step", "welleng/utils.py:get_rf", "welleng/utils.py:get_dogleg"]}
{"id": "C160", "title": "How errors of the angles move a survey", "statement": "If two surveys have the same depths and the same first position, depths do not go back, no turn between neighbouring stations exceeds 1.4 radians and the two directions at every station are at an angle of at most e, then their positions (n, e, tvd) at a station differ by at most 8/3 e times the measured depth from the first station. The angle between two directions is at most the sum of the differences of inclination and azimuth, so inclinations and azimuths within d give e = 2d. Turns between neighbouring stations differ by at most 2e. For two straight wells at an angle t the difference is exactly 2 sin(t/2) times the depth, so the bound has the right order.", "quantifier": "all pairs of surveys with the same depths, of any number of stations, any azimuth references, units and starts, and any error e", "why_tests_cant": "errors of any size at every station of surveys of any length", "anchors": ["welleng/survey.py:Survey", "welleng/utils.py:MinCurve", "welleng/utils.py:get_rf", "welleng/utils.py:get_dogleg"]}
{"id": "C161", "title": "Nodes", "statement": "A Node can be made exactly when no direction is given, or both angles are, or a non-zero vector is. Its pos_nev and pos_xyz are the given position in both systems of axes, its vec_nev and vec_xyz the unit vector along the given one (then the angles given are ignored) or of the given angles, and inc and azi are the angles of that direction with 0 <= inc <= pi and 0 <= azi < 2 pi. Angles given are kept when 0 < inc < 180 degrees and 0 <= azi < 360; of a vertical node the azimuth is not kept. A node without direction has no attribute azi_deg. Giving position and vector in the other axes gives the same node, and so does making a node again from its parameters. The nodes of a Connector are its start and its end; a Connector from the end node of another begins exactly there, with its depth and direction; a target node with both a position and a depth is always refused. get_node of a survey is the node of that station, negative indices counting from the end.", "quantifier": "all positions, vectors, angles, units of angle, axes and optional arguments; all connections and surveys", "why_tests_cant": "every combination of optional arguments, every direction, every connection", "anchors": ["welleng/node.py:Node", "welleng/node.py:get_node_params", "welleng/connector.py:Connector._get_nodes", "welleng/survey.py:get_node"]}
{"id": "C162", "title": "Which well and station the pointer shows", "statement": "In a Plotter the pointer names no well exactly when no added well is among the objects of the scene. Otherwise it names a shown well one of whose vertices is no further from the point than any vertex of any shown well, the first such well in order of adding, and the station whose ring holds that vertex, which exists in the survey. After any sequence of mouse moves the red point and the text depend on the last one only: nothing within 1 cm of the origin, else the point, and the text of that station if a well is shown, and no move raises. This needs rings of n_verts vertices: for a pedal curve with odd n_verts the rings have one vertex fewer, and vertex k of ring i is attributed to station i only when i <= k.", "quantifier": "all wells, scenes, points and sequences of moves; every search that returns a nearest vertex", "why_tests_cant": "any number of wells, rings and moves", "anchors": ["welleng/visual.py:Plotter._get_closest_well", "welleng/visual.py:Plotter._pointer_callback"]}
{"id": "C163", "title": "Figures and repair of a mesh", "statement": "figure of a WellMesh draws its ring vertices at (east, north, tvd) and all its triangles, but without the two centre points: exactly 2 n_verts of the 2 n_verts stations triangles (those of the two ends) refer to points that are not drawn, and figure(edges=True) always raises IndexError. fix_mesh keeps the vertices and keeps every triangle with three different corners once, up to the order of its corners, and no other; a well mesh keeps all its triangles. A triangle that is listed again from another of its corners is not recognised as a duplicate.", "quantifier": "all meshes of at least 3 vertices per ring and 2 rings; all lists of triangles, every unique-row search and every rewinding that keeps corners", "why_tests_cant": "all sizes of meshes and all lists of triangles", "anchors": ["welleng/visual.py:_mesh3d", "welleng/mesh.py:fix_mesh", "welleng/mesh.py:WellMesh"]}
{"id": "C164", "title": "The figure of a survey", "statement": "figure of a survey draws a line through all stations in order at (east, north, tvd), and marks every station once: in the trace of interpolated points or of survey points as it is flagged, in order, with its own depth, inclination and azimuth; a trace is missing exactly when no station has its flag. A survey without flags gets a list of False.", "quantifier": "all surveys and all flags", "why_tests_cant": "any number of stations, every pattern of flags", "anchors": ["welleng/visual.py:_scatter3d"]}
{"id": "C165", "title": "Lines between two wells", "statement": "The lines of an ISCWSA clearance (get_lines) start at the reference stations, one each in order, and the length of each is the centre to centre distance reported for that station. When offset depths increase, no turn between its stations reverses it and the search does not end worse than it started, lines are found for every reference survey; each ends on the path of the offset well, no further away than any of its stations.", "quantifier": "all pairs of wells, settings and optimisers of that kind", "why_tests_cant": "all wells and every optimiser", "anchors": ["welleng/clearance.py:IscwsaClearance.get_lines", "welleng/visual.py:get_lines"]}
{"id": "C166", "title": "Wells, sites and case names of an EDM document", "statement": "get_wells and get_sites give, for exactly the names that occur, the attributes of the last well or site of that name, and raise exactly when one has no name. get_case_name_from_id gives the name of the first case with the id if no case before it lacks an id, and None exactly when all cases have other ids. When case ids differ, the cases listed for a well have the names that the document gives for their ids, and all are listed; with a reused id one gives the name of the first case and the other that of the last.", "quantifier": "all documents, names and ids", "why_tests_cant": "all documents, orders and repetitions", "anchors": ["welleng/exchange/edm.py:EDM.get_wells", "welleng/exchange/edm.py:EDM.get_sites", "welleng/exchange/edm.py:EDM.get_case_name_from_id", "welleng/exchange/edm.py:Well._get_cases"]}
{"id": "C167", "title": "What a clearance run can miss between stations", "statement": "For surveys with increasing depths and no half-circle turns, and a search that does not end worse than it started: the distance reported for a reference station is attained at a point of the offset well, and no point of the offset well is closer to the station than that distance minus half the largest offset station spacing. Hence a point of the reference well at any depth is no closer to any point of the offset well than the distance reported for any station, minus the depth difference to that station, minus half the offset spacing; and if every reported distance is at least d plus half of both spacings, the two wells are nowhere closer than d. The reductions are needed: for every D there are wells with D reported at all stations that meet between stations, and the search looks only next to the nearest offset station, so a station can be reported 25 m away from a well that passes at 15 m, whatever the optimiser.", "quantifier": "all pairs of surveys, settings, depths and optimisers of that kind", "why_tests_cant": "all points between stations of all wells", "anchors": ["welleng/clearance.py:IscwsaClearance._get_closest_points", "welleng/clearance.py:IscwsaClearance", "welleng/survey.py:Survey.interpolate_md"]}
{"id": "C168", "title": "How far a well can be from the survey of it", "statement": "Let a well be any path whose direction is the rate of its position and turns by at most k per unit of length, and let a Survey with station spacing at most g (k g < pi) start on it and hold its direction at the depths of the stations. Then every position of the Survey is within (k g/4 + (k g)^2/12) times the measured depth from the first station of where the well is at that depth. Between stations the interpolated position is within that bound plus 3/4 k g^2. The growth with depth is real: for every k and g with k g < pi there is a corkscrew of curvature k whose survey with stations g apart, however many, is wrong by exactly k g/(2 pi) times the depth.", "quantifier": "all wells of bounded curvature, all surveys of them, all stations", "why_tests_cant": "all differentiable paths", "anchors": ["welleng/survey.py:Survey", "welleng/utils.py:MinCurve", "welleng/utils.py:min_curve_step"]}
{"id": "C169", "title": "Asking a connection to turn back exactly", "statement": "Let a Connector be asked, without a target position, to end in the unit direction exactly opposite to its start, with min_error between 0 and 1. The connection it returns (minimum curvature) ends in the requested direction with its vertical part reduced by that fraction, within 2 min_error |vertical part| of what was asked, and turns by more than a quarter circle. It ends exactly in the requested direction, turning by exactly half a circle, if and only if that direction is vertical or level: for these the perturbation meant to avoid the half-circle turn has no effect.", "quantifier": "all start and target directions and settings", "why_tests_cant": "all unit directions and fractions", "anchors": ["welleng/connector.py:Connector", "welleng/connector.py:mod_vec", "welleng/connector.py:Connector._min_curve"]}
{"id": "C170", "title": "How far apart two drilled wells are when a clearance run says so", "statement": "Let two wells be any paths whose directions are the rates of their positions and turn by at most kr and ko per unit of length, surveyed with station spacings at most g and h (kr g < pi, ko h < pi), each survey starting on its well and holding its direction at its stations. If every separation a clearance run reports between the surveys is at least d + (g + h)/2 + E + E', where E = L (kr g/4 + (kr g)^2/12) + 3/4 kr g^2 with L the length of the reference survey and E' likewise for the offset, then no point of one well over its surveyed depths is closer than d to any point of the other over its own, provided the numerical search never returns a worse point than it was given.", "quantifier": "all pairs of wells of bounded curvature, all surveys of them, all pairs of depths", "why_tests_cant": "all differentiable paths and all pairs of points", "anchors": ["welleng/clearance.py:IscwsaClearance", "welleng/survey.py:Survey", "welleng/utils.py:MinCurve"]}
{"id": "C171", "title": "What plot draws", "statement": "plot hands to the scene one object per item, in order, then the lines and the arrows: a mesh with the vertices and faces of the item, in the colour of the same number if there is one that is not empty and without a colour otherwise (things that are not meshes as they are). The wells it knows are the WellMesh items in order, each linked to the last mesh drawn for it, and the pointer sees them all. If any of these wells is plotted again elsewhere, the first plot no longer sees exactly these. The panel figure of a survey shows every station once in each of its four views: (east, north), (vertical section, tvd), (east, tvd) and (north, tvd), and is titled with the section azimuth in degrees; without such an azimuth there is none.", "quantifier": "all lists of items and colours, all earlier plots; all surveys", "why_tests_cant": "any number of items, colours and plots", "anchors": ["welleng/visual.py:plot", "welleng/visual.py:Plotter.add", "welleng/visual.py:Plotter._get_closest_well", "welleng/visual.py:_panel"]}
{"id": "C172", "title": "Converting tool workbooks to JSON", "statement": "The terms of a converted sheet are exactly its numbered rows with a code, in the order of the sheet, each with the name, function, size, unit, factors, propagation, formulas and singular formulas of its row (empty formulas are 0, empty or zero singular formulas none, a size that is no number 0); about the terms a warning is given exactly for a unit or a propagation letter that is not known and for a size that is no number. It raises exactly when a factor of a term is a text and not a whole number. The range of inclination is the one stated, and 0 to 180 where none is stated, but a stated maximum of 0 becomes 180. After converting a workbook, a file holds what the last sheet with terms whose name gives that file converts to, and other files are as before; the warnings returned under a name are those of the sheet with terms of that name; names that differ only in characters that are _ or not kept share a file. A sheet that cannot be converted ends the conversion, with the files of the sheets before it written.", "quantifier": "all sheets, cells, workbooks and directories", "why_tests_cant": "any number of rows, sheets and files", "anchors": ["welleng/errors/tools/owsg_to_json.py:convert_sheet", "welleng/errors/tools/owsg_to_json.py:convert_workbook", "welleng/errors/tools/owsg_to_json.py:_parse_inc_range", "welleng/errors/tools/owsg_to_json.py:_safe_filename"]}
{"id": "C173", "title": "Names and kind of a converted tool", "statement": "In a sheet converted to JSON an entry is the value beside the last label that reads as its key, rows with a heading as value left aside. The short name is the one stated and else the name of the sheet; the long name is the one stated and else the short name. The model is identified by the prefix stated, and without such an entry by the name of the sheet; but with the cell of the prefix left empty by the short name, and by nothing if that is left empty too, and all such sheets of a set share the text their identifier is made of. The kind is the one known for the tool type, or for the short name where there is no entry for the type; else it is guessed from the words GYRO, BLIND and INC in the name of the sheet, magnetic without them, and exactly then there is a warning. With the cell of the type left empty the short name is not looked at.", "quantifier": "all sheets, cells and names", "why_tests_cant": "any rows, texts and combination of missing and empty entries", "anchors": ["welleng/errors/tools/owsg_to_json.py:convert_sheet", "welleng/errors/tools/owsg_to_json.py:_extract_metadata_kv", "welleng/errors/tools/owsg_to_json.py:TOOL_TYPE_MAP"]}
