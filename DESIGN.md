# Formal model of welleng in Rocq (Coq 8.16.1)

Source: `/repo` (python, read as text only).  Model and proofs: `rocq/theories`.
Properties: `properties.jsonl`.  Status per property: `MANIFEST.json`.
Mutation log: `seeded/LOG.jsonl`.

## 1. How the code is modelled

* **Numbers.** Floating-point code is modelled over the real numbers `R` of the
  standard library.  Rounding is *outside* the model, except in `M_Round` (C158,
  C159: minimum curvature with a rounding after every operation): elsewhere a
  theorem says what the code computes if every arithmetic operation, `sin`,
  `cos`, `sqrt`, `atan2`... is exact.  Where the code relies on IEEE specials (`inf`, `nan`, `x/0`,
  `0/0`), the model uses an explicit type `ext = Fin r | PInf | NInf | NaN` with
  numpy's division rules, so division by zero is never silently `0`.
* **Exceptions.** Functions that can `assert`/`raise` return an error value
  (`option` or a sum with the exception kind); theorems about success state it
  as `= Some ...`/`Ok ...`.
* **Arrays** are lists (or fixed-size records for 3-vectors and 3x3 matrices);
  `np.cumsum`, `np.diff`, `searchsorted`, `mod`, `arctan2` are defined in
  `NumPy.v` from their numpy documentation.
* **State and aliasing** (mutable default arguments, shared headers) are
  modelled as explicit state passed through a call.
* **External solvers** (`scipy.optimize`, the connector's inner iteration) are
  universally quantified functions: theorems hold for every behaviour of the
  solver that meets the stated assumption (or any behaviour at all).

## 2. Files

| file | content |
|---|---|
| `Base.v` | 3-vectors, 3x3 matrices, their algebra |
| `NumPy.v` | numpy/python primitives (`arctan2`, `%`, `cumsum`, ...) |
| `Spec*.v` | specifications written without reference to the model |
| `M_*.v` | models of python modules, every definition citing `/repo` lines |
| `P_*.v` | proofs |
| `Properties_*.v` | only the property theorems, `Print Assumptions`, and examples |

## 3. Per-property plan

| id | modelled | proof |
|---|---|---|
| C01 | `get_vec`, `get_angles` | trigonometry, quadrant analysis of `atan2` |
| C02 | `get_nev`, `get_xyz` | ring |
| C03 | `get_dogleg` | haversine identity, `asin` monotonicity |
| C04 | `min_curve_step`, `get_rf` | trig identities, `sin x <= x` |
| C05 | `_interpolate_survey`, `_interpolate_pos_nev` | slerp algebra: the half-angle form of the step is additive |
| C06, C07 | `MinCurve` on station lists, `ext` division | induction on the list |
| C08 | `_get_transform`, `NEV_to_HLA`, `HLA_to_NEV` | orthogonality, quadratic forms |
| C09 | packing functions | case analysis, ring |
| C10 | `dls_from_radius`, `radius_from_dls` scalar and array | `ext` cases |
| C11 | `_decimal2dms`, `_dms2decimal` with `Int_part` | floor arithmetic |
| C12 | both toolface functions | rotation algebra + `atan2` |
| C13 | `Arc`, `get_arc`, `make_clc_path` | rotation matrices preserve the planar arc |
| C14, C15 | `_process_azi_ref`, header mutation as state | case analysis |
| C16 | `interpolate_md` with `searchsorted` | induction on depths |
| C17, C35 | step grids | induction with floor/mod facts |
| C18, C19 | `String` as a state machine | invariant over all call sequences |
| C20, C21 | force recursion; dict iteration | induction over stations; every string fails |
| C22 | `get_faces`, `get_ends` | counting edges parametric in `n`, `rows` |
| C23 | `sliced_mesh` loop | loop invariant |
| C24, C26, C27 | `_generate_error`, `ToolError` totals | PSD closed under sums; induction |
| C25 | `_drdp`, `drk_*` | `derivable_pt_lim` of balanced tangential |
| C28, C29 | `IscwsaClearance` scalar chain | real inequalities, Cauchy-Schwarz |
| C30 | `_get_ref_cov_below_kop` | PSD/telescoping, counterexample |
| C31 | `_get_closest_points` | argmin lemma, optimiser as oracle |
| C32 | `Connector.__init__` checks, `_get_method` | exhaustive over the finite presence space (complete, not bounded) |
| C33, C34 | `min_dist_to_target`, `min_curve_to_target`, `get_radius_critical` | plane geometry |
| C36, C37 | `_happy_finish`, rescue passes | oracle solver, invariants |
| C38 | `_get_volumes_reference` | field, inequality |
| C39-C41 | `load`, header, `strip_duplicates` | induction on lines / strings |
| C42, C43 | `get_attributes`, `get_parents` | induction; state threading |
| C44 | expression trees, `_validate` | induction on trees |
| C45 | `_remove_duplicates` | induction |
| C46 | `get_vertical_section` | sum-to-product identities |
| C47 | `get_arc` with `target=True`, caller array as state | refuted repetition, exact effect |
| C48 | `Survey` attributes for `start_xyz` and `deg`/grid scale | exact relation, refuted equality |
| C49 | `slice_survey` re-reference | case analysis |
| C50 | `project_ahead` | algebra of appended stations |
| C51 | `interpolate_tvd` | monotone arc depth; refuted degenerate depth |
| C52 | `_call_interpreter`, `_MAG_UNIT_TO_BASE` | linearity of the error vectors |
| C53 | `_json_to_em_adapter` (OrderedDict) | reverse induction on the terms |
| C54 | `String` state machine | invariant over call sequences, witness |
| C55 | the zip of `get_forces_and_torsion` | index arithmetic on reversed lists, witness |
| C56 | `get_azi_delta`, `force_normal` | list induction, monotonicity of the side force |
| C57 | `HookLoad` grids (`np.arange`) | ceiling arithmetic |
| C58 | `_func`, `_get_density` of `Fluid` | derivative of the column volume, mean value theorem |
| C59 | `Survey.__init__`, `_min_curve`, `_process_azi_ref` | list induction, trigonometry of C03 |
| C60 | `annular_volume`, `linear_convert` | field |
| C61 | `_get_sf_min` between stations | algebra, refuted equality for a non-zero margin |
| C62 | `_interpolate_covs` | convexity of quadratic forms |
| C63 | mesh separation factor, `round` | case analysis, witness |
| C64 | `_get_delta_nev_vectors`, `_traveling_cylinder` | polar form of `atan2`, rounding bound |
| C65 | `get_ref_sigma` | telescoping sums, reversed lists |
| C66, C67 | `_get_vertices` | orthonormal frame, half-angle identities, Cauchy-Schwarz on the ellipse |
| C68 | `_align_verts`, KD-tree as oracle | list rotation, modular index cases |
| C69 | `_get_faces`, `_make_trimesh` | list indexing, division |
| C70, C73 | `_get_distances`, `_get_method` with the numpy tolerances as reals | case analysis, unit-vector bounds |
| C71 | `_use_method` branch min_curve | arc geometry shared with C07 |
| C72 | `Connector.__init__`, `_get_distances` with the random offset as a parameter | case analysis, witnesses |
| C74, C75 | `_happy_finish` with its closing 2x2 system, `interpolate` of three sections | Cramer's rule, loop invariants, step-grid lemmas of C35 |
| C76 | `_get_distances` as called by the solver, random offsets as parameters | case analysis |
| C77 | `solve_curve_hold_batch` per element | plane geometry of C33; the clips are identities by Cauchy-Schwarz |
| C78 | `get_wellbore_data`, `add_attributes`, the shared default list as state | induction on documents, association-list lemmas |
| C79 | `_get_surveys`, `get_parent_surveys` | determinism of the tie chain, induction on segments |
| C80 | `export` and `load` of wbp.py with Python's text formatting (`M_Text`) | lemmas on words, columns and decimal notation; induction on steps, targets and plans |
| C81 | `add_location`, `_add_location_data` | length of formatted numbers, words of adjacent columns |
| C82 | `_add_target_geometry`, `_add_target_color` | induction on blocks of lines |
| C83 | all weight functions (`M_Weights`), the sensor readings and angle computation (`Spec_Weights`) | implicit differentiation; existence of the curve of attitudes |
| C84 | toolface-independent weights | rotation of covariances; antiderivatives of trigonometric polynomials over a turn |
| C85 | axial-correction weights, `_funky_denominator` | derivative of a stationary point, existence by a quantitative root lemma |
| C86 | XYM1-4, XYM3L/4L, XYM3E/4E | derivative of the tool axis, algebra over sine and cosine |
| C87 | the arrays for vertical stations | rows of `vstack`, induction on the survey |
| C88 | XCL, XCLA, XCLH | rows, wrap-around of the sine, running sums |
| C89 | ToolError for tool_codes/*.yaml | sums of positive semi-definite matrices, induction on codes |
| C90 | `call_func`, all weight functions | case analysis on the name, when denominators vanish |
| C91 | `call_func` | case analysis on the name |
| C92 | `_get_toolface_and_rates` (`M_Rates`) | components of one direction on the other's axes; uniqueness of the bend normal |
| C93 | `_curvature_to_rate`, rates at the ends | derivative of the arc's direction on high side and right side |
| C94 | rates at interior stations | as C93; quotient of curvatures |
| C95 | `project_to_bit` with `project_ahead` | composition of arcs |
| C96 | `get_circle_radius` | the arc on its circle; row arithmetic of the stacked arrays |
| C97 | `SurveyHeader` (`M_Header`) | case analysis over the calculator's behaviour |
| C98 | `SurveyData`, `splice_surveys` (`M_Splice`) | induction over the pieces; uniqueness of traced positions |
| C99 | covariance loop of `interpolate_survey` | loop invariant: stations met = stations at or above the depth |
| C100 | `_get_errors` without model, `_get_radius` | case analysis, row by row |
| C101 | `get_sections`, `TurnPoint`, `get_data`, `func` (`M_Sections`) | induction over stations of a section: rotations about one axis compose; uniqueness of the arc |
| C102 | `_get_ti_data`, both indices | invariant of the accumulation loop over sections; chord is at most the arc |
| C103 | `directional_difficulty_index` | cumulative sum, logarithm laws |
| C104 | `Survey.maximum_curvature` (`M_MaxCurve`) | arcs from `arc_transform_fwd`; induction over stations; uniqueness of the arc |
| C105 | `drop_off` (`M_Extend`); the scipy optimiser is a parameter, constrained only by the hypotheses of each theorem (`keeps_bounds`, `finds_best`, `finds_least`) | closed form of the misfit in signed turn; witnesses by `epsilon` |
| C106 | `extend_to_tvd` (`M_Extend`), both optimisers parameters | closed form of the depth as a function of the length; Connector lemmas of C32-C34 |
| C107 | `connect_points` (`M_Plan`) on top of the `Connector` model; `leg` and `awkward` (`Spec_Plan`) say what a connection is and where it can fail | induction over the points; Connector theorems of C33 and C34 |
| C108 | `survey_to_plan`, `_get_section` (`M_Plan`), with Connector and the score as parameters | induction over the stations; a measure for termination |
| C109 | `get_sf_mins` and `_get_sf_min` (`M_Refine`): run, dips, search, insertion; `dips`, `unmarked`, `descends` (`Spec_Refine`) | induction over the inserted stations with an invariant on the rebuilt survey (`P_Refine`, `P_Refine2`) |
| C110 | the same, two runs compared | results depend on a station's own data only; monotonicity of the rule; a computed witness (`P_Refine3`, `P_Refine6`) |
| C111 | `_get_radius`, `_get_radii`, the default unit in `get_sf_mins` (`M_Refine`) | case analysis (`P_Refine3`) |
| C112 | `_get_kop_index`, `_get_ref` (`M_Refine`) | index characterisation; tail of minimum curvature (`P_Refine4`) |
| C113 | `IscwsaClearance.__init__` over all stations (`M_Refine`) | C30, C62 and the rule theorems, put together (`P_Refine5`) |
| C114 | `interpolate_survey_tvd`, `get_node_tvd`, `interpolate_tvd` with an origin (`M_Levels`); `is_level`, `suits` (`Spec_Levels`) | the half-angle formula gives the first crossing; the connector redraws the rest of a leg; induction over the turns of the loop, then over the legs (`P_Levels` to `P_Levels8`) |
| C115 | the same | invariant: the current level is the last at or above the current station (`P_Levels6`) |
| C116 | the same | invariants on monotone wells (`P_Levels6`) |
| C117 | `from_connections` with the Survey it builds (`M_Draw.draw`, over `M_Connector` and `M_Survey`); `sound`, `on_connection`, `drawn_depth` (`Spec_Draw`) | the rows of each section lie on it; merging sections and removing duplicates keeps the depths; minimum curvature between two stations of one arc gives the arc (`P_Draw` to `P_Draw4`) |
| C118 | the same | the half-turn criterion from the lateral equations; Rodrigues' formula about the negated axis (`P_Draw4`, `P_Draw5`, `P_Draw7`) |
| C119 | `project_to_target` (`M_Draw`) | inversion of the program, then C117 and the connector theorems (`P_Draw6`) |
| C120 | `set_vertical_section`, `_get_vertical_section` (`M_Draw`) | the survey does not depend on the azimuth; a witness in degrees (`P_Draw7`) |
| C121 | `M_Weights.call_func`, `yaml_tool_error`, `M_Error.json_tool_error`; `same_at`, `drops_end`, `same_term` (`Spec_Causal`) | every weight function row by row on a list and on an extension of it; sums of the sources; the closed form of the last row (`P_Causal` to `P_Causal4`) |
| C122 | `M_Models.open_model`, `error_model`; the model files as data in `M_Bundle` (generated by `tools/mkbundle.py` from `tool_index.yaml`, `tool_codes`, `iscwsa_json`); `regular_model`, `some_order`, `regular_survey` (`Spec_Models`) | checks over the tables by computation, combined with the conditions of C92 for arbitrary codes; permutations of the file lists (`P_Models`, `P_Models2`) |
| C123 | `M_Models.make_diagnostic_data` | dictionaries as association lists; induction on the stations; totals from C89 (`P_Models3`) |
| C124 | `moved_well`, `isometry`, `turn`, `turned_rows` (`Spec_Frames`) over `M_Clearance`/`M_Refine` runs | every step commutes with an isometry: minimum curvature and interpolation (`P_Frames`), closest points and the rule (`P_Frames2`), construction, bearings, the refinement objective as a function and the insertion of stations in lockstep (`P_Frames3`) |
| C125 | `mesh_section`, `mesh_clearance`, `mesh_collisions` (`M_MeshRun`), `on_well`, `section_of`, `misread` (`Spec_MeshRun`); the collision manager is an arbitrary answer | the slices are computed (`slice_section`), the state of the shared headers is threaded through the loop (`run_rows`), the minimiser contract gives the points; a level true-north section refutes the first section |
| C126 | `wellbore_ids`, `name_tables`, `find_wellbore`, `wellbore_graph` (`M_EdmWell`); `last_named`, `labelled` (`Spec_EdmWell`) | induction over the document: the dictionary holds the last wellbore of each name; the second dictionary is inverted with distinct ids |
| C127 | `hole_sections`, `hole_section`, `hole_section_data`, `get_data`, `make_case`; `last_row`, `has_table`, `looked_up` | fold invariants on dictionary assignment; the ten look-ups of a case are run as a list of steps whose outputs are never their keys |
| C128 | `profiles`, `profile_table`, `ppfpt_data`, `group_rows`, `sort_groups`, `sort_ppfpt`; `sorted_from`, `level`, `readable`, `lacks_field` | stable insertion sort; the grouping fold appends each row to its group; case split on the first unreadable row |
| C129 | `run`, `search`, `dms_pattern`, `dms_from_string`, `pprint_dms` (`M_DmsText`): the pattern as a term and a backtracking matcher; `digits`, `decimal`, `a_word` (`Spec_DmsText`) | success: one lemma per construct taking the first alternative of the matcher; failure: soundness of the matcher (`run_sound`) and counting of commas; ints through `DecimalZ.of_to` |
| C130 | `export_csv`, `save`, `savetxt`, `csv_comments` (`M_Export`, on `M_Sections` and `M_Text`); `lines`, `fields`, `shows`, `station_columns` (`Spec_Export`) | splitting of joined texts; control points from C101; refutation by two arcs in one plane, for every optimiser result |
| C131 | `survey_to_df` (`M_Export`) | unfolding of the constructor; rates from C93 (`rates_everywhere`); refutation by a survey that drops to vertical and builds east |
| C132 | `parse_model_sheet` (`M_Ingest`); `terms_of`, `describes_term`, `last_given` (`Spec_Ingest`) | induction over the rows; the dictionary as the last of the entries put |
| C133 | `legacy_codes`, `legacy_header`, `replace`, `contains` (`M_Ingest`) | the same; counting of distinct names |
| C134 | `revision_re`, `latest_readme_revision` (`M_Ingest`, on the matcher of `M_DmsText`) | what the matcher consumes and captures, both directions; induction with the best so far |
| C135 | `parse_wellpath_sheet` (`M_Ingest`) | the loop split into one fold per value |
| C136 | `parse_totals_sheet`, `parse_validation_sheet` (`M_Ingest`) | first index of a name; positions of named columns |
| C137 | `header_spans`, `read_blocks`, `parse_error_source_sheet`, `load_iscwsa_example` (`M_Ingest`) | invariant of the spans; blocks as the last of the named groups; lengths for the cut |
| C138 | `build_survey`, `judge`, `compare_source`, `compare_totals`, `validate_workbook` (`M_Validate`); `accepted`, `describes_source`, `describes_total` (`Spec_Validate`) | maximum with nan as a conjunction; rows compared as a selection; insertion sort |
| C139 | `source_pass_fail`, `exit_code` (`M_Validate`) | dictionary of conjunctions, induction over the rows |
| C140 | `sig_line_re`, `station_re`, `parse_lines` (`M_Copsegrove`, on the matcher of `M_DmsText`); `stations_in` (`Spec_Copsegrove`) | both directions of the matcher: what it consumes, and that it takes the longest number; induction with the lines held |
| C141 | `per_term_sigmas` (`M_Copsegrove`) | induction |
| C142 | `term_diffs`, `py_max`, `validate_term` (`M_Copsegrove`); `all_near` (`Spec_Copsegrove`) | what the maximum of Python covers, nan included |
| C143 | `compare_term`, `classify` (`M_Copsegrove`); `agrees` (`Spec_Copsegrove`) | maximum with nan as a conjunction; positions of the flattened rows |
| C144 | `add_survey_points`, `string_index` (`M_TorqueStations`); `absent` (`Spec_TorqueStations`) | the loop against the course of the survey; sorting as permutation; positions leg by leg |
| C145 | `get_standard_data`, `make_survey` (`M_StandardSet`); `describes_well` (`Spec_StandardSet`) | last words; induction over the sheets |
| C146 | `make_trimesh_scene`, `transform_trimesh_scene` (`M_Scene`); `shown`, `volume` (`Spec_Scene`) | per vertex, ring identities |
| C147 | `Target`, `plot_data` (`M_Target`) | sets of keys |
| C148 | `wbp_to_survey`, `from_connections` (`M_Target`) | cases of the number of steps |
| C149 | `rewrite_excel` (`M_Rewrite`); `rewritten` (`Spec_Rewrite`) | induction over the text, one word at a time |
| C150 | `connector`, `from_connections`, `interpolate_survey` (`M_Connector`), `solve_curve_hold` (`M_Connector2`); `turned_args`, `alike` (`Spec_Replan`) | every step commutes with a rotation about the vertical; directions of angles; witnesses at large coordinates |
| C151 | `json_formulas` (`M_FormulaData`), `parse`, `term_row`, `interpreted` (`M_Formulas`), `call_func` (`M_Weights`) | each of the 96 terms evaluated symbolically by the modelled interpreter and compared with the weight of that name |
| C152 | `formula_error_model` (`M_FormulaModels`) | cases over the terms of each file; zero covariances leave the totals unchanged |
| C153 | `iscwsa_mwd`, `legacy_func`, `legacy_rev4`, `legacy_rev5` (`M_Legacy`) | the two lists of codes compared entry by entry; the sum of covariances split at the declination term |
| C154 | `Survey` (`M_Survey`), `MinCurve` (`M_Utils`) | induction along the stations: triangle inequality for distances and for angles; chord shorter than arc |
| C155 | `extract_owsg_codes_generic.py`, `extract_iscwsa_codes.py` (`M_Extract`) | rows as entries put into a dictionary one after the other; the last one stands; induction on rows for the gyro sections and for agreement with `M_Ingest` |
| C156 | `Connector._closest_approach` (`M_Approach`) | the pivot and the new target component by component; the nearest point on a sphere by the triangle inequality; the turn from `arc_solve` as for C34; rational witnesses |
| C157 | `minimize_target_pos_and_vec_defined`, `_target_pos_and_vec_defined`, `_get_pos2` (`M_Solver`) | half a pass is `ch_solve` (C34); uniqueness of the turn from the two components of the target and the hold length; fixed points both ways; induction on passes and calls; `chc_path`, `chc_depths`, `chc_error` (C36, C37, C74) for the end |
| C158 | `get_dogleg`, `get_rf` with a rounding after every operation (`M_Round`), for any machine; binary64 through Flocq's `round` (`Spec_Binary`) | errors as factors between (1-u)^n and its inverse; products, sums of non-negative terms, square roots; sine, arcsine and tangent through chords of concave functions; azimuth errors through the triangle inequality of angles; witnesses for the refutation and for arccos |
| C159 | `min_curve_step`, `np.cumsum` and `MinCurve.poss` with a rounding after every operation (`M_Round`) | absolute errors relative to a bound, added and multiplied; induction on the stations |
| C160 | `Survey` with `MinCurve` (as C14), two of them side by side | chords and the slope of the ratio factor (from C158) per step, triangle inequality of angles for the turns, induction along the stations; straight wells exactly |
| C161 | `Node`, `get_node_params` (`M_Node`, `make_node`), node arguments of `Connector` (`with_nodes`), `_get_nodes`, `get_node` with python indices | cases of the optional arguments; angles of a direction from C01; `check_args` for what a node argument excludes |
| C162 | `_get_closest_well`, `_pointer_callback` (`M_Visual`); the KD tree is a search that returns a nearest point | argmin over the shown wells (from C31), index arithmetic of flattened rings, invariant "no point, no text" over sequences of events |
| C163 | `_mesh3d` on `get_faces` (C22), `fix_mesh` with unique rows and rewinding as arguments | counting the end triangles in the explicit list of faces; permutations of duplicate-free lists |
| C164 | `_scatter3d` | induction along the stations |
| C165 | `get_lines` on `closest_point` and `clearance_run` (C31, C113) | entry by entry |
| C166 | `get_wells`, `get_sites`, `get_case_name_from_id`, `_get_cases` (`M_EdmNames`) | induction on the document |
| C167 | `clearance_run`, `closest_point` (C31, C113), `interpolate_md` (C16) | the path is 1-Lipschitz between any two of its points (arcs split twice); triangle inequality; explicit crossing and hairpin wells |
| C168 | `Survey` positions (C06) against an arbitrary differentiable path | mean value theorem on both halves of an interval in every direction; sin x - x cos x <= x^3/3; induction along the stations |
| C169 | `mod_vec`, `target_vec`, `do_min_curve` (C71) | the perturbed direction by its components; the dogleg is the angle between the directions (C01); witness: a vertical start turned back |
| C170 | `clearance_run` (C167), `Survey`, `survey_interpolate_md` | C168 between stations: tangent bounds for the well and for the arc of the survey; with C167 by the triangle inequality |
| C171 | `plotter_add`, `add_all`, `plot`, `seen`, `panel`; vedo and plotly not modelled | induction over the items; meshes are numbered in order of making, so those of a later plot differ from all earlier ones |
| C172 | `convert_row`, `convert_terms`, `inc_limits`, `safe_filename`, `convert_workbook`; cells as pandas gives them, reading and showing of numbers as parameters | induction over the rows and over the sheets; case analysis of cells |
| C173 | `kv`, `tool_names`, `tool_kind`; an empty cell is nan, which python does not take as false | induction over the rows; case analysis of entries; words in capitals by induction over the name |

## 4. Trusted base

* Coq's kernel (8.16.1) and `coqchk`.
* `Print Assumptions` for the theorems over `R` lists only standard-library
  axioms: `ClassicalDedekindReals.sig_forall_dec`,
  `ClassicalDedekindReals.sig_not_dec`,
  `FunctionalExtensionality.functional_extensionality_dep` (and possibly
  `Classical_Prop.classic` through library lemmas).  Five theorems of C105-C106
  whose proofs build an exact optimiser also use
  `ClassicalEpsilon.constructive_indefinite_description`.  Theorems on lists, strings
  and naturals are closed under the global context.  No axioms are added.
* The hand translation from python to Gallina (the citations make it checkable).

### What `Print Assumptions` lists for each theorem

<!-- assumptions -->
<!-- generated by tools/mkdesign.py -->

* No axioms (closed under the global context) - 102 theorems: `C09_pack_symmetric`, `C09_pack_unpack`, `C09_sigmas`, `C09_unpack_pack`, `C100_both`, `C122_listed`, `C122_rev4`, `C126_by_id`, `C126_by_name`, `C126_graph`, `C126_graph_parents`, `C126_shadowed`, `C127_case_attributes`, `C127_case_made`, `C127_hole_section_rows`, `C127_hole_sections`, `C127_look_up`, `C127_rows_lost`, `C129_any_case`, `C129_float_minutes`, `C129_printed`, `C129_read_back`, `C129_sign_lost`, `C129_three_values_with_symbols_refuted`, `C129_tiny_seconds`, `C129_written`, `C133_header`, `C133_propagation`, `C134_latest`, `C134_none`, `C139_exit_code`, `C139_sources`, `C141_aligned`, `C145_fails`, `C145_no_survey`, `C145_read`, `C146_made`, `C147_drawn`, `C147_made`, `C149_blanks`, `C149_no_power_left`, `C149_upper_case_refuted`, `C149_word_characters`, `C151_every`, `C163_caps_refuted`, `C163_edges_refuted`, `C163_repaired`, `C163_turned_refuted`, `C163_well_unchanged`, `C166_case_name`, `C166_cases`, `C166_reused_refuted`, `C166_sites`, `C166_wells`, `C171_scene`, `C171_second_plot_refuted`, `C171_seen`, `C172_files`, `C172_shared_file`, `C172_stops`, `C172_warnings`, `C173_entries`, `C22_closed`, `C22_consistent_winding_refuted`, `C22_indices`, `C23_default_raises`, `C23_windows`, `C39_blank`, `C39_blocks`, `C39_counts`, `C39_ends`, `C39_no_tie`, `C39_repeated_section_refuted`, `C39_survey_data`, `C42_and_refuted`, `C42_query`, `C42_single`, `C43_chain`, `C43_cyclic`, `C43_end`, `C43_fresh_answer_refuted`, `C43_history`, `C44_accepted`, `C44_calls`, `C44_only_numbers_refuted`, `C44_override`, `C44_reads`, `C44_unbound`, `C45_remove_duplicates`, `C45_unordered_refuted`, `C53_distinct_names`, `C53_repeated_names`, `C68_direction`, `C68_fails`, `C68_same_cycle`, `C68_vertices_kept`, `C69_odd_pedal_refuted`, `C69_vertices`, `C78_content`, `C78_found`, `C78_own_surveys_refuted`, `C82_geometry`.
* `ClassicalDedekindReals.sig_forall_dec` - 9 theorems: `C136_order_refuted`, `C136_totals`, `C136_totals_readable`, `C136_validation`, `C137_name_clash_refuted`, `C137_source`, `C145_factors_refuted`, `C38_density`, `C93_dls_first`.
* `ClassicalDedekindReals.sig_forall_dec`, `FunctionalExtensionality.functional_extensionality_dep` - 125 theorems: `C02_xyz_nev`, `C09_cov_from_vec`, `C09_make_cov`, `C100_radius`, `C101_rounding`, `C108_first_jump`, `C108_fit_refuted`, `C108_outcome`, `C108_sections`, `C111_radius`, `C11_fields`, `C11_roundtrip`, `C122_file`, `C122_gyro_file`, `C122_gyro_file_refuted`, `C122_missing`, `C122_unrecognised`, `C123_fails`, `C123_table`, `C128_attributes`, `C128_case_sorted`, `C128_case_unsorted`, `C128_no_profiles`, `C128_profiles`, `C128_tables`, `C132_header`, `C132_readable`, `C132_terms`, `C135_readable`, `C135_references`, `C135_stations`, `C137_parts`, `C137_sources`, `C138_by_depth_refuted`, `C138_errors`, `C138_report`, `C138_runs`, `C138_zero_targets`, `C139_nothing_compared`, `C139_totals_refuted`, `C140_order`, `C140_sigma_lines`, `C140_station_lines`, `C140_stations`, `C140_tail_lost`, `C142_difference`, `C142_order`, `C142_undefined_refuted`, `C142_verdict`, `C144_index`, `C146_reduction_refuted`, `C146_transformed`, `C148_legs`, `C148_raises`, `C152_which`, `C155_get_index`, `C155_header`, `C155_header_readable`, `C155_index`, `C155_inverse`, `C157_minimum`, `C159_length`, `C162_none`, `C172_fails`, `C172_limits`, `C172_stated_maximum_refuted`, `C172_terms`, `C173_distinct_refuted`, `C173_identity`, `C173_kind`, `C173_names`, `C173_short_name_refuted`, `C18_any_length_refuted`, `C18_bottom_up`, `C18_built_by_lengths`, `C18_complete_bottom_up`, `C18_complete_top_down`, `C18_top_down`, `C19_depth`, `C19_missing_length`, `C19_out_of_range`, `C20_angles`, `C20_buoyancy`, `C21_never_constructed`, `C24_source_first_given`, `C24_source_valid`, `C26_magnitude_scale`, `C26_random_law`, `C26_systematic_law`, `C30_kop_index`, `C32_accepted`, `C35_hold`, `C38_fails`, `C38_nonnegative`, `C38_recombined`, `C38_sum`, `C40_long_name`, `C40_round_trip`, `C40_second_export_refuted`, `C40_writable`, `C41_identical_only_refuted`, `C41_kept`, `C41_last`, `C54_too_deep`, `C54_top_only`, `C56_shift`, `C57_depths`, `C57_friction`, `C60_conversion`, `C62_interpolated_covariance`, `C63_decision`, `C63_rounded_refuted`, `C65_sigma_from_kop`, `C79_root`, `C79_stations`, `C79_untied`, `C80_digits`, `C80_round_trip`, `C81_bound`, `C81_location`, `C82_no_colour`, `C99_at_station`, `C99_between`, `C99_psd`, `C99_symmetric`.
* `ClassicalDedekindReals.sig_not_dec`, `ClassicalDedekindReals.sig_forall_dec`, `FunctionalExtensionality.functional_extensionality_dep` - 116 theorems: `C01_vec_components`, `C02_rigid`, `C03_arcsin_domain`, `C08_cov_roundtrip`, `C08_cov_structure`, `C08_lateral_axis`, `C08_rotation`, `C08_tangent_axis`, `C08_variance`, `C08_vector_roundtrip`, `C09_make_cov_diagonal`, `C100_neither`, `C100_one`, `C10_forms_agree_except_at_zero`, `C10_inverse`, `C10_specials`, `C10_value`, `C120_set`, `C121_json`, `C133_codes`, `C133_count`, `C133_lost_refuted`, `C143_difference`, `C143_relative_refuted`, `C143_runs`, `C143_verdict`, `C146_shape`, `C14_consistent`, `C14_input_kept`, `C14_rebuild`, `C150_plan`, `C155_agree`, `C155_codes`, `C155_gyro`, `C155_gyro_blank_refuted`, `C155_header_same`, `C155_ignored_refuted`, `C155_number_refuted`, `C155_readable`, `C155_space_refuted`, `C155_tools`, `C156_nan`, `C156_place`, `C156_planes`, `C156_point`, `C157_calls`, `C157_candidate`, `C157_choice`, `C157_forward`, `C157_one_call`, `C157_only_turn`, `C157_ways`, `C162_history`, `C162_nearest`, `C162_pedal_refuted`, `C162_station`, `C164_figure`, `C20_balance`, `C20_frictionless`, `C20_order`, `C20_torque`, `C24_json_totals`, `C24_source_first`, `C24_totals`, `C25_error_vectors`, `C25_jacobian`, `C25_one_pass`, `C26_causality`, `C27_json_fails`, `C27_modes`, `C29_additive`, `C29_nan`, `C30_psd`, `C30_systematic`, `C30_zero_at_kop`, `C31_nearest_station`, `C35_curve`, `C35_no_step`, `C35_zero_length`, `C52_unit_effect`, `C55_own_radius_refuted`, `C56_north_crossing`, `C60_annulus`, `C60_annulus_positive`, `C66_circle`, `C76_moved`, `C76_start_kept_refuted`, `C83_rates_unique`, `C85_rates_unique`, `C86_tilt_unique`, `C87_accelerometer`, `C87_accelerometer_axial`, `C87_cna`, `C87_e_zero_refuted`, `C87_east`, `C87_east_e`, `C87_east_l`, `C87_east_near`, `C87_later_stations_refuted`, `C87_north`, `C87_north_e`, `C87_north_l`, `C87_north_near`, `C88_azimuth`, `C88_directions`, `C88_high_side`, `C97_all_given`, `C97_date_iff`, `C97_default_limit_refuted`, `C97_degrees_or_radians`, `C97_dip_from_location`, `C97_given`, `C97_omitted`, `C97_omitted_dip_reversed`, `C97_outcomes`, `C97_units`.
* `ClassicalDedekindReals.sig_not_dec`, `ClassicalDedekindReals.sig_forall_dec`, `FunctionalExtensionality.functional_extensionality_dep`, `ClassicalEpsilon.constructive_indefinite_description`, `Classical_Prop.classic` - 5 theorems: `C105_attainable`, `C105_negative_refuted`, `C105_shortest_refuted`, `C106_max_length_refuted`, `C106_over_half_turn_refuted`.
* `ClassicalDedekindReals.sig_not_dec`, `ClassicalDedekindReals.sig_forall_dec`, `FunctionalExtensionality.functional_extensionality_dep`, `Classical_Prop.classic` - 392 theorems: `C01_angles_then_vec`, `C01_vec_then_angles`, `C03_dogleg_azimuth_offset`, `C03_dogleg_azimuth_period`, `C03_dogleg_is_angle`, `C03_dogleg_symmetric`, `C03_dogleg_zero`, `C04_chord_length`, `C04_chord_not_longer`, `C04_equal_angles`, `C04_reverse`, `C04_step_is_arc`, `C04_straight`, `C05_inserted_station`, `C05_insertion_changes_nothing`, `C05_position_only_interpolation`, `C06_accepts`, `C06_intervals`, `C06_positions`, `C06_prefix`, `C06_translation`, `C07_dls`, `C101_arcs`, `C101_ascending`, `C101_boundaries`, `C101_first_last`, `C101_merged_arcs_refuted`, `C101_points`, `C101_rates`, `C101_reproduces`, `C101_resurvey_rows`, `C101_resurvey_success`, `C101_shape`, `C101_toolface`, `C102_coefficient`, `C102_index`, `C102_keywords`, `C102_method_tolerance`, `C102_modified_coefficient`, `C102_modified_index`, `C102_modified_sign`, `C102_sections`, `C102_sign`, `C102_stretched_grid_refuted`, `C103_feet`, `C103_value`, `C104_added`, `C104_depth_order_refuted`, `C104_first_half`, `C104_header`, `C104_no_noise`, `C104_originals`, `C104_success`, `C104_vertical_refuted`, `C105_best`, `C105_nodes`, `C105_success`, `C106_connections`, `C106_missing`, `C106_reaches`, `C106_straight`, `C107_case`, `C107_connections`, `C107_failures`, `C107_integers`, `C107_integers_refuted`, `C107_scalar_refuted`, `C109_refined_reference`, `C110_minimum_refuted`, `C110_refined_results`, `C111_other_units`, `C111_run_holes`, `C112_kick_off`, `C113_whole_run`, `C114_level_survey`, `C115_level_complete`, `C116_level_feet`, `C116_level_missed`, `C117_curve_hold_sound`, `C117_drawn_survey`, `C117_hold_sound`, `C117_min_curve_sound`, `C117_single_arc_sound`, `C118_arc_wrong_side`, `C118_misses`, `C118_when_long`, `C118_wrong_side`, `C119_bit`, `C119_chain`, `C119_design_ignored`, `C119_rate`, `C119_reaches`, `C120_degrees_refuted`, `C120_kept`, `C121_model`, `C121_one_source`, `C121_two_stations_refuted`, `C121_vertical_end`, `C121_vertical_end_refuted`, `C122_errors`, `C122_gyro_usable`, `C122_inc_only`, `C122_usable`, `C123_totals`, `C123_zero_error_refuted`, `C124_horizontal_bearing`, `C124_mirrored_survey`, `C124_refined`, `C124_results`, `C124_toolface`, `C124_turned_run`, `C124_turned_survey`, `C125_bearing`, `C125_first_section_refuted`, `C125_reported`, `C125_sections`, `C125_without_data`, `C12_along`, `C12_bearing`, `C12_implementations_agree`, `C12_range`, `C12_translate`, `C12_vertical`, `C130_ends`, `C130_file`, `C130_raises`, `C130_rows`, `C130_tolerance_refuted`, `C131_one_row_per_station`, `C131_rates`, `C131_station`, `C131_toolface`, `C131_turn_rate_refuted`, `C13_arc`, `C13_arc_is_min_curve`, `C13_arc_leaves_at_toolface`, `C13_clc_joined`, `C144_distinct_refuted`, `C144_feet_refuted`, `C144_outcome`, `C144_stations`, `C150_batch`, `C150_connection`, `C150_north_refuted`, `C150_origin_refuted`, `C150_survey`, `C151_abiz_refuted`, `C151_amil`, `C151_json_only`, `C151_names`, `C151_power_inverse`, `C151_power_negative`, `C151_power_reading`, `C151_power_real`, `C151_power_whole`, `C151_same`, `C151_silent`, `C151_unknown`, `C151_vertical_function`, `C151_vertical_refuted`, `C152_left_out`, `C152_usable`, `C153_other_models`, `C153_rev4`, `C153_rev5`, `C153_rev5_refuted`, `C153_second_station`, `C154_between_stations`, `C154_coordinates`, `C154_depths`, `C154_distance`, `C154_straight`, `C154_turn`, `C154_units`, `C154_vertical_depth`, `C156_closest_refuted`, `C156_end`, `C156_fails`, `C156_off`, `C156_reachable`, `C156_rejected`, `C156_same`, `C156_short_refuted`, `C156_succeeds`, `C156_turn`, `C156_vertical_refuted`, `C157_candidate_refuted`, `C157_complete`, `C157_error`, `C157_first`, `C157_half`, `C157_loop`, `C157_passes`, `C157_path`, `C157_sound`, `C158_absolute`, `C158_arccos`, `C158_arccos_cosine`, `C158_binary64`, `C158_north_refuted`, `C158_ratio_factor`, `C158_relative`, `C158_zero`, `C159_binary64`, `C159_positions`, `C15_query_rewrites_header`, `C15_rebuild_same_iff`, `C160_angles`, `C160_direction`, `C160_positions`, `C160_straight`, `C160_turns`, `C161_angles`, `C161_axes`, `C161_chained`, `C161_connection`, `C161_consistent`, `C161_made`, `C161_no_direction`, `C161_position`, `C161_rebuild`, `C161_survey`, `C161_target_depth`, `C161_vector`, `C161_vertical_refuted`, `C165_lengths`, `C165_on_well`, `C167_anywhere`, `C167_crossing_refuted`, `C167_depth`, `C167_search_refuted`, `C167_station`, `C168_corkscrew`, `C168_every_depth`, `C168_positions`, `C169_nudged_refuted`, `C169_turn`, `C16_at_a_station`, `C16_lookup`, `C170_wells_apart`, `C171_panel`, `C17_every_station_refuted`, `C17_exact`, `C17_rows`, `C17_short`, `C28_decisions`, `C28_distance`, `C28_monotone`, `C28_monotone_everywhere_refuted`, `C28_no_uncertainty`, `C28_quantities`, `C29_coincident`, `C29_standard_deviation`, `C29_swap`, `C30_random_psd_refuted`, `C31_best_of_two`, `C31_closest`, `C32_method`, `C32_outcomes`, `C32_presence_only_refuted`, `C33_every_radius_refuted`, `C33_reaches`, `C33_solves`, `C33_twice_radius`, `C34_largest_radius`, `C34_reaches`, `C34_solves`, `C34_tolerance_band`, `C35_connection`, `C36_depths`, `C37_final`, `C37_first_rescue`, `C37_first_rescue_cases`, `C37_moving_target_refuted`, `C37_planarity`, `C37_rescue`, `C46_increment`, `C46_one_value_per_station`, `C46_overwrites_azimuth`, `C47_repeat_differs_refuted`, `C47_target_arc`, `C48_agree`, `C48_agree_refuted`, `C48_pos_nev`, `C49_slice`, `C50_project_ahead_curve`, `C50_project_ahead_straight`, `C51_tvd_query`, `C51_tvd_query_refuted`, `C58_surface`, `C58_zero_iff_mass_balance`, `C59_accepts`, `C59_intervals`, `C59_stations`, `C61_between_stations`, `C64_degrees`, `C64_horizontal`, `C64_toolface`, `C66_ellipse`, `C66_semi_axes`, `C67_opposite`, `C67_pedal_curve`, `C69_pedal_ring_size`, `C70_distinct_points_refuted`, `C70_within_tolerance`, `C71_min_curve`, `C72_ahead_refuted`, `C72_forced_refuted`, `C72_kept`, `C73_hold`, `C74_missed`, `C74_path`, `C75_grid`, `C77_agrees`, `C77_behind`, `C77_reaches`, `C77_straight`, `C77_unreachable`, `C83_accelerometer_xy_bias`, `C83_accelerometer_z_bias`, `C83_accelerometer_z_scale`, `C83_magnetometer_xy_bias`, `C83_magnetometer_z_bias`, `C83_magnetometer_z_scale`, `C83_weights_unique`, `C84_accelerometer_bias`, `C84_accelerometer_bias_axial`, `C84_accelerometer_scale`, `C84_accelerometer_scale_axial`, `C84_magnetometer_bias`, `C84_magnetometer_bias_axial`, `C84_magnetometer_scale`, `C84_magnetometer_scale_axial`, `C85_accelerometer_bias`, `C85_accelerometer_z_bias`, `C85_accelerometer_z_bias_iff`, `C85_accelerometer_z_bias_refuted`, `C85_accelerometer_z_scale`, `C85_dip`, `C85_field_strength`, `C85_magnetometer_bias`, `C85_rates_exist`, `C86_all_directions`, `C86_e_terms_iff`, `C86_interval_terms`, `C86_weights_unique`, `C87_accelerometer_first_refuted`, `C87_l_axes_refuted`, `C87_later_stations`, `C88_dispatch`, `C88_random`, `C89_defined_iff`, `C89_totals`, `C90_axial_iff`, `C90_intervals_iff`, `C90_plain`, `C90_reference`, `C90_short`, `C90_unknown`, `C91_propagation`, `C92_toolface_last`, `C92_toolface_start`, `C92_toolface_straight`, `C93_dls`, `C93_every`, `C93_first`, `C93_last`, `C93_last_exists`, `C94_interior`, `C94_interior_iff`, `C94_interior_refuted`, `C95_continues_the_arc`, `C95_continues_the_line`, `C95_explicit`, `C95_feet_refuted`, `C95_vertical`, `C95_vertical_refuted`, `C96_centres`, `C96_first_half_iff`, `C96_first_radius`, `C96_section`, `C96_straight`, `C96_straight_section`, `C98_cut_and_join`, `C98_failures`, `C98_missing_covariance`, `C98_positions`, `C98_rows_iff`, `C98_success`, `C98_values`, `C99_interpolated`, `C99_lost_station_refuted`.
* `Classical_Prop.classic` - 2 theorems: `C149_rewritten`, `C149_twice`.
<!-- /assumptions -->

## 5. What is modelled and what is not

Never modelled: floating-point overflow and underflow, and rounding outside
`M_Round` (C158, C159); plotting beyond what is handed to
the plotting library (C171) and the `figure` methods; `trimesh`, `vtk`, `openpyxl`, `pandas`, `networkx`, `pint`
internals; the numerical iterations of `scipy` optimisers (they are parameters of
the model, and a theorem says what it assumes of them); magnetic-field lookups;
file encodings.

The table is generated from the citations in the model: a function counts as
modelled when definitions cite at least three quarters of its body.  Functions
that only wrap, store arguments or forward to a modelled function are listed as
not modelled when no definition cites them.

<!-- coverage -->
<!-- generated by tools/mkdesign.py -->

| file | modelled | partly modelled (share of the body cited) | not modelled |
|---|---|---|---|
| `architecture.py` | `String.__init__`, `String.depth`, `String.add_section`, `String.add_section_top_down`, `String.add_section_bottom_up` | - | `WellBore.__init__`, `BHA.__init__` |
| `clearance.py` | `Clearance._get_kop_index`, `Clearance._get_radii`, `Clearance._get_ref_cov_below_kop`, `Clearance._get_ref`, `IscwsaClearance._get_sf_min`, `IscwsaClearance.get_sf_mins`, `IscwsaClearance.get_lines`, `IscwsaClearance._fun`, `IscwsaClearance._get_delta_nev_vectors`, `IscwsaClearance._get_PCRs`, `IscwsaClearance._traveling_cylinder`, `MeshClearance._get_mesh`, `MeshClearance._process_well`, `MeshClearance._fun`, `MeshClearance._get_closest_nev`, `get_ref_sigma` | `IscwsaClearance.__init__` (66%), `IscwsaClearance._get_closest_points` (46%), `IscwsaClearance._interpolate_covs` (50%) | `Clearance.__init__`, `Clearance._get_nevs`, `IscwsaClearance._compute_off_cov_sidetrack_correction`, `IscwsaClearance._get_delta_hla_vectors`, `IscwsaClearance._get_covs`, `IscwsaClearance._get_calc_hole`, `MeshClearance.__init__`, `MeshClearance.get_lines` |
| `connector.py` | `Connector.__init__`, `Connector._get_nodes`, `Connector._min_dist_to_target`, `Connector._min_curve_to_target`, `Connector._get_method`, `Connector._get_initial_methods`, `Connector._closest_approach`, `Connector._min_curve`, `Connector._hold`, `Connector._get_pos2`, `Connector._target_pos_and_vec_defined`, `Connector._happy_finish`, `Connector._delta_pos3_rescue`, `Connector._project_tangent`, `Connector._rendered_endpoint_error`, `Connector._endpoint_rescue`, `Connector._enforce_planarity`, `Connector._get_tangent_temp`, `Connector._mod_pos`, `Connector._get_distances`, `minimize_target_pos_and_vec_defined`, `check_dogleg`, `mod_vec`, `get_pos`, `get_vec_target`, `get_curve_hold_data`, `shape_factor`, `solve_curve_hold_batch`, `min_dist_to_target`, `min_curve_to_target`, `get_radius_critical`, `interpolate_curve`, `interpolate_hold`, `get_min_curve`, `get_interpolate_hold`, `get_interpolate_min_curve_to_target`, `get_interpolate_min_dist_to_target`, `get_interpololate_curve_hold_curve`, `convert_target_input_to_booleans`, `connect_points`, `survey_to_plan`, `_get_section`, `drop_off`, `extend_to_tvd` | `Connector._use_method` (55%) | `Connector._get_angles_target`, `Connector._get_md_target`, `Connector.interpolate`, `interpolate_well` |
| `error.py` | `get_error_models`, `ErrorModel.__init__`, `ErrorModel._e_NEV`, `ErrorModel._e_NEV_star`, `ErrorModel._sigma_e_NEV_systematic`, `ErrorModel._generate_error`, `ErrorModel.drk_dDepth`, `ErrorModel.drk_dInc`, `ErrorModel.drk_dAz`, `ErrorModel.drkplus1_dDepth`, `ErrorModel.drkplus1_dInc`, `ErrorModel.drkplus1_dAz`, `ErrorModel._drdp`, `get_errors`, `make_diagnostic_data` | - | `get_tool_index`, `ErrorModel.Error.__init__`, `ErrorModel._drdp_sing` |
| `errors/conformance.py` | `compare_model`, `_classify` | - | `_bindings_from_survey`, `_ShimError.__init__`, `_ShimError._generate_error`, `_legacy_eval_term`, `_interp_eval_term`, `standard_test_survey`, `_print_one_model`, `main` |
| `errors/copsegrove.py` | `parse_copsegrove`, `per_term_sigmas` | - | - |
| `errors/copsegrove_validate.py` | `_bindings_for_station` | - | `validate_random_terms`, `main` |
| `errors/extract_iscwsa_codes.py` | `extract_header`, `extract_codes` | `make_error_dict` (60%) | `extract_data`, `make_header_dict`, `remove_characters`, `make_index` |
| `errors/extract_owsg_codes_generic.py` | `extract_header`, `extract_codes`, `make_error_dict`, `make_header_dict`, `remove_characters`, `make_index`, `get_index`, `get_short_names` | - | `extract_data`, `open_workbook` |
| `errors/interpreter.py` | `_rewrite_excel_to_python`, `_validate`, `evaluate_formula` | - | - |
| `errors/iscwsa_ingest.py` | `_latest_readme_revision`, `ErrorTerm.propagation_name`, `ErrorTerm.magnitude_si`, `ErrorTerm.unit_si`, `_to_float`, `_merged_header_spans`, `parse_model_sheet`, `parse_wellpath_sheet`, `parse_totals_sheet`, `parse_validation_sheet`, `parse_error_source_sheet`, `load_iscwsa_example` | `_extract_cov_columns` (38%), `to_legacy_codes_dict` (34%) | `_require_openpyxl`, `_rows` |
| `errors/iscwsa_mwd.py` | `iscwsaMwd.__init__`, `iscwsaMwd.call_func`, `iscwsaMwd._initiate_func_dict` | - | `iscwsaMwd._get_the_func_out`, `DREF`, `DSF`, `DST`, `ABXY_TI1`, `ABXY_TI2`, `ABZ`, `ASXY_TI1`, `ASXY_TI2`, `ASXY_TI3`, `ASZ`, `MBXY_TI1`, `MBXY_TI2`, `MBZ`, `MSXY_TI1`, `MSXY_TI2`, `MSXY_TI3`, `MSZ`, `AZ`, `DBH`, `DBHR`, `AMIL`, `SAG`, `SAGE`, `XYM1`, `XYM2`, `XYM3`, `XYM4`, `XCL`, `XCLA`, `XCLH`, `XYM3L`, `XYM4L` |
| `errors/iscwsa_validate.py` | `_relative_error`, `validate_workbook` | - | `ValidationReport.source_pass_fail`, `ValidationReport.summary`, `_build_survey`, `main` |
| `errors/tool_errors.py` | `_resolve_json_model`, `ToolError.__init__`, `ToolError.call_func`, `ToolError._call_interpreter`, `ToolError._initiate_func_dict`, `_funky_denominator`, `DREF`, `DSF`, `DST`, `ABIZ`, `ABIXY_TI1`, `ABXY_TI1`, `ABIXY_TI2`, `ABXY_TI2`, `AMID`, `ABZ`, `ASXY_TI1`, `ASIXY_TI1`, `ASXY_TI2`, `ASIXY_TI2`, `ASXY_TI3`, `ASIXY_TI3`, `ASZ`, `ASIZ`, `CNA`, `CNI`, `MBXY_TI1`, `MBIXY_TI1`, `MBXY_TI2`, `MBIXY_TI2`, `MBZ`, `MFI`, `MSXY_TI1`, `MSXY_TI2`, `MSXY_TI3`, `MSIXY_TI1`, `MSIXY_TI2`, `MSIXY_TI3`, `MSZ`, `AZ`, `DBH`, `MDI`, `AMIL`, `SAG`, `SAGE`, `XYM1`, `XYM2`, `XYM3`, `XYM3E`, `XYM4`, `XYM4E`, `XCL`, `XCLA`, `XCLH`, `XYM3L`, `XYM4L` | `_json_to_em_adapter` (41%) | `ToolError._get_the_func_out`, `DBHR` |
| `errors/tools/owsg_to_json.py` | `_is_nanish`, `_formula_str`, `_singularity_or_none`, `_parse_inc_range`, `_scrub`, `_extract_metadata_kv`, `_term_rows`, `_safe_filename`, `convert_workbook` | `convert_sheet` (66%) | `_to_iso_date`, `_det_uuid`, `main` |
| `exchange/csv.py` | `export_csv` | - | - |
| `exchange/edm.py` | `EDM.get_attributes`, `EDM._wellbore_id_to_name`, `EDM.get_wells`, `EDM.get_sites`, `EDM.get_wellbore_ids`, `EDM.get_wellbore_graph`, `EDM.add_attributes`, `EDM.get_wellbore_data`, `EDM.get_parents`, `EDM.get_wellbore`, `EDM.get_case_name_from_id`, `Case.__init__`, `Well._get_cases`, `Well._set_attribute`, `Well.make_case`, `Well._get_ppfpt`, `Well._sort_ppfpt_data`, `Well._get_surveys`, `Well.get_parent_surveys`, `Well.get_data`, `Well.get_hole_sections`, `Well._get_hole_section_data`, `Well.get_hole_section_data`, `Well.get_ppfpt_data`, `Well._get_ppfpt_data` | `EDM._wellbore_id_to_well_id` (43%), `EDM.get_tags` (33%) | `EDM.__init__`, `EDM._get_data`, `Well.__init__` |
| `exchange/wbp.py` | `Target.__init__`, `SurveyPoint.__init__`, `WellPlan._process_wbp_data`, `WellPlan._add_target_color`, `WellPlan._add_wellplan_header`, `WellPlan._add_turn_point`, `WellPlan._add_extended_survey_point`, `WellPlan._add_survey_data`, `WellPlan._add_location_data`, `load`, `add_targets`, `add_location`, `add_header`, `add_step`, `add_turn_point`, `add_survey_point`, `export`, `add_comments`, `save_to_file`, `wbp_to_survey`, `strip_duplicates` | `WellPlan.__init__` (61%), `WellPlan._add_target_geometry` (20%), `WellPlan._get_units` (67%), `string_strip` (11%), `get_unit_key` (12%), `get_key` (43%) | `WellPlan._get_local_coordinates`, `WellPlan._get_surface_location`, `WellPlan._initiate_target`, `WellPlan._add_target_location`, `get_parent_survey` |
| `fluid.py` | `Fluid.__init__`, `Fluid._get_density_base_fluids`, `Fluid._get_volumes_reference`, `Fluid._get_coefficients`, `Fluid._func`, `Fluid._get_density`, `Fluid.get_density_profile` | `DensityDiesel.get_density` (20%) | `DensityDiesel.__init__`, `main` |
| `io.py` | `get_standard_data`, `get_well_data`, `acr_setup`, `make_survey`, `get_clearance_data` | - | `import_iscwsa_collision_data` |
| `mesh.py` | `WellMesh._get_faces`, `WellMesh._align_verts`, `to_trimesh`, `make_trimesh_scene`, `transform_trimesh_scene`, `sliced_mesh`, `fix_mesh`, `get_ends`, `get_faces` | `WellMesh.__init__` (14%), `WellMesh._get_vertices` (65%) | `WellMesh._get_vertices_vectors`, `WellMesh._make_trimesh`, `WellMesh.figure` |
| `node.py` | `Node.__init__`, `Node.check_angle_inputs`, `Node.get_pos`, `Node.properties`, `get_node_params` | - | - |
| `survey.py` | `SurveyHeader.__init__`, `SurveyHeader._get_mag_data`, `SurveyHeader._get_date`, `SurveyHeader._validate_date`, `Survey.__init__`, `Survey._process_azi_ref`, `Survey._get_azi_temp`, `Survey._get_azi_mag_and_true_rad`, `Survey._get_azi_mag_and_true_deg`, `Survey._get_radius`, `Survey._curvature_to_rate`, `Survey._get_toolface_and_rates`, `Survey.save`, `Survey.interpolate_md`, `Survey.project_to_bit`, `Survey._get_vertical_section`, `Survey.get_vertical_section`, `Survey.set_vertical_section`, `Survey.tortuosity_index`, `Survey.maximum_curvature`, `modified_tortuosity_index`, `tortuosity_index`, `directional_difficulty_index`, `_get_ti_data`, `TurnPoint.__init__`, `get_node`, `interpolate_md`, `_interpolate_survey`, `_interpolate_pos_nev`, `interpolate_tvd`, `slice_survey`, `get_circle_radius`, `get_sections`, `get_unit`, `survey_to_df`, `export_csv`, `get_data`, `_remove_duplicates`, `from_connections`, `interpolate_survey`, `get_node_tvd`, `interpolate_survey_tvd`, `project_ahead`, `project_to_target`, `SurveyData.__init__`, `SurveyData.append_survey`, `SurveyData.get_survey`, `splice_surveys` | `SurveyParameters.get_factors_from_x_y` (58%), `Survey._min_curve` (23%), `Survey._get_errors` (65%), `SplitSurvey.__init__` (29%), `func` (60%) | `SurveyParameters.__init__`, `SurveyParameters.transform_coordinates`, `Survey._get_nev`, `Survey._make_angles`, `Survey.get_error`, `Survey._get_sections`, `Survey.get_nev_arr`, `Survey.interpolate_tvd`, `Survey.interpolate_survey_tvd`, `Survey.interpolate_survey`, `Survey.figure`, `Survey.project_to_target`, `Survey.modified_tortuosity_index`, `Survey.directional_difficulty_index`, `_ensure_int_or_float`, `make_survey_header` |
| `target.py` | `Target.__init__`, `Target.plot_data` | - | - |
| `torque_drag.py` | `TorqueDrag.__init__`, `TorqueDrag.add_survey_points_from_strings`, `TorqueDrag.get_inc_average`, `TorqueDrag.get_inc_delta`, `TorqueDrag.get_forces_and_torsion`, `force_normal`, `force_tension_delta`, `torsion_delta`, `buoyancy_factor`, `HookLoad.get_ff_range` | `HookLoad.get_data` (14%) | `TorqueDrag.get_buoyancy_factors`, `TorqueDrag.get_azi_delta`, `TorqueDrag.get_characteristic_od`, `TorqueDrag.get_weight_buoyed_and_radius`, `TorqueDrag.get_coeff_friction_sliding`, `TorqueDrag.figure`, `HookLoad.__init__`, `HookLoad.figure`, `figure_string_tension_and_torque`, `figure_hookload` |
| `utils.py` | `get_dogleg`, `get_rf`, `min_curve_step`, `MinCurve.__init__`, `get_vec`, `get_nev`, `get_xyz`, `_get_angles`, `get_angles`, `_get_transform`, `NEV_to_HLA`, `HLA_to_NEV`, `get_sigmas`, `linear_convert`, `make_cov`, `make_long_cov`, `dls_from_radius`, `radius_from_dls`, `cov_from_vec`, `errors_from_cov`, `_get_arc_pos_and_vec`, `Arc.transform`, `get_arc`, `annular_volume`, `_decimal2dms`, `_dms2decimal`, `pprint_dms`, `dms_from_string`, `make_clc_path`, `get_toolface`, `get_toolface_fast` | - | `get_transform`, `get_unit_vec`, `Arc.__init__`, `decimal2dms`, `dms2decimal` |
| `visual.py` | `plot`, `_panel`, `_scatter3d`, `_mesh3d` | - | `get_lines`, `figure`, `_update_fig` |
<!-- /coverage -->
