{
 "claims": [
  {
   "property": "C01",
   "status": "proved",
   "theorems": [
    "C01_fresh_ids_consecutive",
    "C01_fresh_ids_distinct",
    "C01_mkdocs_refuted"
   ],
   "note": "Consecutive and distinct over every history; the only way to repeat is the documentation helper, which restarts the counter (C01_mkdocs_refuted)."
  },
  {
   "property": "C02",
   "status": "proved",
   "theorems": [
    "C02_registry_coherent",
    "C02_one_id_per_object"
   ],
   "note": "Invariant over every history."
  },
  {
   "property": "C03",
   "status": "proved",
   "theorems": [
    "C03_renumbering_moves",
    "C03_renumbering_unregistered",
    "C03_unregistered_frame_refuted"
   ],
   "note": "Full effect and frame for registered objects in every reachable state; C03_unregistered_frame_refuted shows that renumbering an evicted object unregisters its evictor."
  },
  {
   "property": "C04",
   "status": "partial",
   "theorems": [
    "C04_replay_exact",
    "C04_replay_safe_counter",
    "C04_replay_client",
    "C04_replay_refuted"
   ],
   "note": "False as stated (C04_replay_refuted). C04_replay_exact characterises exactly which ids survive; two practical sufficient conditions are proved."
  },
  {
   "property": "C05",
   "status": "partial",
   "theorems": [
    "C05_equal_implies_same_hash_refuted",
    "C05_equality_characterised",
    "C05_equality_symmetric",
    "C05_symmetry_refuted"
   ],
   "note": "Hash contract false (refuted); equality characterised; symmetric exactly under equal attribute sets, otherwise it can raise."
  },
  {
   "property": "C06",
   "status": "proved",
   "theorems": [
    "C06_register_frame",
    "C06_unregister_frame",
    "C06_history",
    "C06_never_replaced"
   ],
   "note": "Both directions, single and group registration."
  },
  {
   "property": "C07",
   "status": "partial",
   "theorems": [
    "C07_group_registration_refuted",
    "C07_group_registration_exact",
    "C07_group_registration_free"
   ],
   "note": "False as stated (refuted): a group registration that fails keeps the entries made before the clash. Exact effect proved, and all-or-nothing when no source is taken."
  },
  {
   "property": "C08",
   "status": "proved",
   "theorems": [
    "C08_lookup_order",
    "C08_source_name",
    "C08_lookup_none",
    "C08_convert_outcome"
   ],
   "note": "Lookup order characterised exactly, including fallback and failure."
  },
  {
   "property": "C09",
   "status": "partial",
   "theorems": [
    "C09_roundtrip",
    "C09_texts_differ",
    "C09_unnamed_iff",
    "C09_unnamed_flattened",
    "C09_fields_flattened",
    "C09_matrix_refuted",
    "C09_separator_in_name_refuted",
    "C09_nested_refuted",
    "C09_padding_refuted",
    "C09_count_refused"
   ],
   "note": "Proved for scalars, vectors of two or more items and packed structures of such fields with clean names; the exact effect on other shapes is also proved. Refuted for matrices, one-item vectors, separators in names, nested structures and padding."
  },
  {
   "property": "C10",
   "status": "proved",
   "theorems": [
    "C10_recorded_arguments_exact",
    "C10_check_keeps_values"
   ],
   "note": "Exact for every signature and call without protocol objects; object arguments are the subject of C11."
  },
  {
   "property": "C11",
   "status": "partial",
   "theorems": [
    "C11_object_argument_resolves",
    "C11_other_arguments_kept",
    "C11_no_other_arguments",
    "C11_resolution_succeeds",
    "C11_object_with_default_lost",
    "C11_object_with_default_refuted",
    "C11_identifier_argument_refuted"
   ],
   "note": "Proved for parameters without default; false for parameters with a default and for identifiers passed as arguments (refuted)."
  },
  {
   "property": "C12",
   "status": "partial",
   "theorems": [
    "C12_accepted_iff",
    "C12_rejection_is_value_error",
    "C12_matching_value_kept",
    "C12_matching_value_kept_refuted",
    "C12_objects_unchecked_refuted"
   ],
   "note": "Acceptance characterised exactly; refuted for protocol objects (never checked) and for values that already match a later member of a union."
  },
  {
   "property": "C13",
   "status": "proved",
   "theorems": [
    "C13_off_calls_change_nothing",
    "C13_switch_resumes",
    "C13_no_command_never_recorded",
    "C13_on_result"
   ],
   "note": "All states and call lists; __no_command__ over all reachable states."
  },
  {
   "property": "C14",
   "status": "proved",
   "theorems": [
    "C14_queue_is_log",
    "C14_ids_increase"
   ],
   "note": "Every history over any number of queues; ids strictly increasing."
  },
  {
   "property": "C15",
   "status": "proved",
   "theorems": [
    "C15_push_refused",
    "C15_push_accepted",
    "C15_readonly_unchanged"
   ],
   "note": "Pushes and calls; only assigning the flag or empty() can change a read-only queue."
  },
  {
   "property": "C16",
   "status": "partial",
   "theorems": [
    "C16_run_in_order",
    "C16_flag_after_error_refuted",
    "C16_flag_after_error"
   ],
   "note": "Order, once-only and contents proved, also when a command raises; the flag is restored only on normal return (refuted otherwise)."
  },
  {
   "property": "C17",
   "status": "partial",
   "theorems": [
    "C17_run_keeps_queues",
    "C17_run_keeps_queues_refuted"
   ],
   "note": "Proved when the queue run is the active one or recording is off; false otherwise (refuted)."
  },
  {
   "property": "C18",
   "status": "partial",
   "theorems": [
    "C18_same_name_same_queue",
    "C18_different_names_different_queues",
    "C18_active_is_latest",
    "C18_implicit_default_refuted"
   ],
   "note": "Singletons and latest-active proved over every history; the queue created implicitly as 'default' is not the named one (refuted)."
  },
  {
   "property": "C19",
   "status": "partial",
   "theorems": [
    "C19_constructor_executes",
    "C19_constructor_after_load",
    "C19_direct_execution_refuted",
    "C19_refused"
   ],
   "note": "Refuted as stated: recorded constructors (dotted names) raise when executed straight from the recording queue, for every backend; after saving and loading, and for every __init__ command, the property is proved."
  },
  {
   "property": "C20",
   "status": "partial",
   "theorems": [
    "C20_save_exact",
    "C20_save_load",
    "C20_native_values",
    "C20_empty_queue_refuted",
    "C20_empty_queue_exact",
    "C20_late_conversion_refuted"
   ],
   "note": "Proved for non-empty queues whose delayed conversions have no side effect and whose class and method names have no slash (exact file contents, session unchanged, same commands in order, consecutive fresh ids). Refuted otherwise: saving an empty queue saves the active one; conversions that build recorded objects change the queue and are written after their use."
  },
  {
   "property": "C21",
   "status": "partial",
   "theorems": [
    "C21_load_replaces",
    "C21_load_active",
    "C21_unreadable_file",
    "C21_load_into_empty_refuted",
    "C21_load_into_empty_exact",
    "C21_load_into_readonly"
   ],
   "note": "Proved for non-empty writable queues and for None. Refuted for an empty queue (the active one is replaced, exact effect proved) and a read-only queue (emptied, exact effect proved). Unreadable files change nothing."
  },
  {
   "property": "C22",
   "status": "proved",
   "theorems": [
    "C22_buffer_bytes",
    "C22_distinct_bytes_distinct_text"
   ],
   "note": "All byte strings; also alphabet, length and injectivity of the encoding. base64 written out in the model."
  },
  {
   "property": "C23",
   "status": "partial",
   "theorems": [
    "C23_failed_load_refuted",
    "C23_load_effect"
   ],
   "note": "Refuted: the registry and the active queue are reset before the format is checked. Exact effect of a failed load proved."
  },
  {
   "property": "C24",
   "status": "partial",
   "theorems": [
    "C24_sizes_partition",
    "C24_uniform_partition",
    "C24_nested",
    "C24_items_unique",
    "C24_negative_sizes_refuted",
    "C24_degenerate_uniform_refuted"
   ],
   "note": "Proved for non-negative sizes (uniform, per-item, nested lists), with rejection exactly when sizes do not add up. Refuted: negative sizes that add up are accepted; size 0 or empty data with a uniform size raise ZeroDivisionError."
  },
  {
   "property": "C25",
   "status": "proved",
   "theorems": [
    "C25_always_a_list_of_items",
    "C25_write_item",
    "C25_sizes_never_change",
    "C25_write_outside"
   ],
   "note": "Over every history of writes (integer, slice and list keys) on arrays built with non-negative sizes."
  },
  {
   "property": "C26",
   "status": "partial",
   "theorems": [
    "C26_unit_slices",
    "C26_lists_of_indices",
    "C26_strided_slice_refuted",
    "C26_reversed_slice_refuted",
    "C26_empty_slice_refuted",
    "C26_any_slice_exact"
   ],
   "note": "Proved for non-empty unit-step slices and lists of indices. Refuted for other steps and empty slices; the exact result of any non-empty slice is proved."
  },
  {
   "property": "C27",
   "status": "partial",
   "theorems": [
    "C27_changes_since_clear_reported",
    "C27_changes_since_creation_reported",
    "C27_smallest_block",
    "C27_views_inside",
    "C27_too_many_refused",
    "C27_reversed_slice_refuted",
    "C27_element_of_view_refuted",
    "C27_inplace_division_refuted"
   ],
   "note": "Proved for histories of forward slices of any depth, +=, -=, *= and element writes through the base array; extents are also shown smallest. Refuted for negative steps, for one element written through a view, and for in-place operators the class does not override."
  },
  {
   "property": "C28",
   "status": "partial",
   "theorems": [
    "C28_assignments_mirrored",
    "C28_mirrored_after_assignment",
    "C28_pending_reported",
    "C28_inplace_refuted",
    "C28_reversed_slice_refuted",
    "C28_nested_view_refuted"
   ],
   "note": "Proved for all histories of forward-slice assignments through views of any depth, and with in-place operators in between for views taken from the base array (after each assignment). Refuted for in-place operators alone, for negative steps on the base array, and for in-place operators followed by an assignment through a view of a view."
  },
  {
   "property": "C29",
   "status": "proved",
   "theorems": [
    "C29_read",
    "C29_other_names"
   ],
   "note": "Every string over one alphabet of the class, any number of axes; other strings raise AttributeError."
  },
  {
   "property": "C30",
   "status": "partial",
   "theorems": [
    "C30_write_scalar",
    "C30_write_components",
    "C30_write_rows",
    "C30_write_column",
    "C30_write_arrays",
    "C30_write_elements",
    "C30_read_back",
    "C30_error_unchanged",
    "C30_single_vector_refuted",
    "C30_single_vector_raises",
    "C30_one_value_per_component_refuted",
    "C30_square_rows_refuted",
    "C30_square_rows_transposed",
    "C30_empty_refuted"
   ],
   "note": "Proved for scalars, one value per component, one row per element, one array per component and one value per element, with read-back and no change on error. Refuted where the code cannot tell these apart: as many elements as named components, a single vector given all its components (the documented example), and empty arrays."
  },
  {
   "property": "C31",
   "status": "partial",
   "theorems": [
    "C31_copy_partial",
    "C31_copy_keeps",
    "C31_copy_constant_right",
    "C31_copy_refuted"
   ],
   "note": "Proved for transforms of any shape in which the right operand of every operator is a transform (structure, fresh objects, value, independence both ways). Refuted for a constant right operand: the copy shares the left operand and never evaluates (proved for all such operators)."
  },
  {
   "property": "C32",
   "status": "partial",
   "theorems": [
    "C32_operands_kept",
    "C32_transform_transform_partial",
    "C32_transform_constant_partial",
    "C32_constant_transform_partial",
    "C32_expressions_partial",
    "C32_constant_operand_refuted",
    "C32_constant_divided_refuted"
   ],
   "note": "No operand is ever modified (all operators, calls, bindings). Values proved for copyable operands and for whole expressions of any size. Refuted: an operand with a constant on its right, e.g. (x*2)+x; c/t raises TypeError; c+t is computed as t+c."
  },
  {
   "property": "C33",
   "status": "partial",
   "theorems": [
    "C33_call_composes_partial",
    "C33_chain_partial",
    "C33_chain_bound",
    "C33_regrouped_refuted",
    "C33_operator_refuted"
   ],
   "note": "Proved for chains of any length of accessors, measures, colormaps and lights around any copyable transform, and for chains bound after being made. Refuted for t1(t2)(t3), which drops t2, and for operators, which ignore the transform they are called on."
  },
  {
   "property": "C34",
   "status": "partial",
   "theorems": [
    "C34_bind_keeps",
    "C34_bind_partial",
    "C34_rebind_partial",
    "C34_operator_refuted",
    "C34_call_replaces_buffer",
    "C34_out_refused"
   ],
   "note": "Proved for chains of any length; rebinding raises ValueError and changes nothing, for any transform that is not an operator. Refuted for operators."
  },
  {
   "property": "C35",
   "status": "partial",
   "theorems": [
    "C35_conversion_partial",
    "C35_inch_is_dpi_pixels",
    "C35_resolution",
    "C35_homogeneous",
    "C35_additive",
    "C35_meter_exact",
    "C35_meter_refuted",
    "C35_kilometer_refuted"
   ],
   "note": "Conversions between all units but the metre are exact in every context, for numbers and arrays; measures are linear. Meter is 1000 cm (10e2), so it is refuted, with the exact factor proved. Arithmetic is exact here; C94 bounds the floating-point error."
  },
  {
   "property": "C36",
   "status": "partial",
   "theorems": [
    "C36_set_input",
    "C36_set_output_partial",
    "C36_alias_refuted",
    "C36_refused",
    "C36_unknown",
    "C36_history",
    "C36_names"
   ],
   "note": "Proved for inputs, outputs, refused values, unknown names and all histories. Missing only where false: an input holding the very array of an output changes with it (refuted)."
  },
  {
   "property": "C37",
   "status": "partial",
   "theorems": [
    "C37_output_first",
    "C37_components",
    "C37_value",
    "C37_frame",
    "C37_shared_input_ignored",
    "C37_shared_output_frozen",
    "C37_current_output_refuted",
    "C37_nested_refuted"
   ],
   "note": "Output-before-input reading, component picking, the value of any transform tree and independence from variables not read are proved. Refuted: outputs that share the name of an input are never written (proved for every visual and history), and inputs that are transforms are read unevaluated. Evaluation is a function of the visual in the model, so order cannot matter there."
  },
  {
   "property": "C38",
   "status": "partial",
   "theorems": [
    "C38_points_partial",
    "C38_markers_partial",
    "C38_segments_partial",
    "C38_groups_partial",
    "C38_pixels_near_first",
    "C38_pixels_refuted",
    "C38_colour_refuted",
    "C38_square_refuted",
    "C38_nothing",
    "C38_sizes_refused"
   ],
   "note": "For every argsort meeting numpy's contract, ties and NaN included: each item drawn once, far items first, own attributes, for points, markers, segments, paths and polygons. Refuted where false: a single RGBA value with as many items as channels (or vertices, for paths and polygons), and pixels, which are drawn near first. Matplotlib's cycling of attributes and its refusal of two-dimensional sizes are part of the model."
  },
  {
   "property": "C39",
   "status": "partial",
   "theorems": [
    "C39_returns",
    "C39_raises_partial",
    "C39_raises_refuted",
    "C39_history"
   ],
   "note": "Proved for all returns and for exceptions before drawing starts; exceptions while drawing turn tracking off, for good (refuted, exact over all histories). render is modelled as its sequence of steps, each of which may raise."
  },
  {
   "property": "C40",
   "status": "partial",
   "theorems": [
    "C40_sizes",
    "C40_indices",
    "C40_uniform",
    "C40_forms_agree",
    "C40_covers",
    "C40_group_sizes",
    "C40_uniform_covers",
    "C40_count",
    "C40_uniform_zero",
    "C40_uniform_negative",
    "C40_indices_beyond",
    "C40_remainder_refuted",
    "C40_overflow_refuted"
   ],
   "note": "The three forms give the same groups and cover the vertices when sizes add up, for all sizes. Refuted: uniform sizes that do not divide the vertex count drop vertices, and sizes of a small integer type wrap."
  },
  {
   "property": "C41",
   "status": "proved",
   "theorems": [
    "C41_well_formed",
    "C41_parsed_well_formed",
    "C41_errors",
    "C41_text_is_read",
    "C41_draws_as_svg",
    "C41_draws_as_svg_refuted"
   ],
   "note": "svg_to_path returns codes in complete groups starting with MOVETO and as many vertices, or raises one of four errors (or an error of an arc). Tokenizing the text of letters and numbers gives them back. The parse equals an independent SVG drawing semantics for paths with a moveto after each closepath; refuted without that guard (AttributeError / TypeError)."
  },
  {
   "property": "C42",
   "status": "proved",
   "theorems": [
    "C42_relative_same_path",
    "C42_relative_step",
    "C42_implicit_letters",
    "C42_start_position"
   ],
   "note": "Whole paths: relative and absolute spelling parse to the same result (including errors). Step level for every state. Leaving out repeated letters changes nothing. The starting position only matters for a relative first moveto."
  },
  {
   "property": "C43",
   "status": "partial",
   "theorems": [
    "C43_within",
    "C43_touches_refuted",
    "C43_touches_partial",
    "C43_touches_square",
    "C43_keeps_shape",
    "C43_degenerate"
   ],
   "note": "In [-0.5,0.5]^2: proved. Touching both extremes on both axes: refuted (one common minimum and maximum); proved that some side is touched at either end, and all four for equal extents. Shape kept up to scale and flip. Empty path raises; all coordinates equal gives NaN."
  },
  {
   "property": "C44",
   "status": "partial",
   "theorems": [
    "C44_axes_turn",
    "C44_axes_rotations",
    "C44_axes_compose",
    "C44_transpose",
    "C44_turns_are_rotations",
    "C44_rotate_partial",
    "C44_rotate_composes_partial",
    "C44_rotate_axis_partial",
    "C44_rotate_refuted"
   ],
   "note": "Over the exact reals. xrotate, yrotate, zrotate are the stated rotations, fix their axes and compose. rotate adds 1e-16 to the length of the axis: it is within 3e-16/|axis| of the rotation in every entry (_partial), and a short axis refutes the unguarded claim. The rounding of xrotate, yrotate and zrotate is C125; that of rotate is not modelled."
  },
  {
   "property": "C45",
   "status": "partial",
   "theorems": [
    "C45_ortho_exactly_when_centred",
    "C45_ortho_yz",
    "C45_ortho_refuted",
    "C45_frustum_exactly_when_level",
    "C45_frustum_refuted",
    "C45_flat_volumes",
    "C45_perspective_corners",
    "C45_perspective_shows"
   ],
   "note": "ortho maps its corners exactly when left+right=0, frustum exactly when bottom+top=0 (misplaced entries [0,2] and [2,1]); perspective is right for all parameters. Counterexamples given. Exact reals; their rounding is C125."
  },
  {
   "property": "C46",
   "status": "partial",
   "theorems": [
    "C46_three_numbers",
    "C46_translate",
    "C46_scale",
    "C46_viewport",
    "C46_transpose",
    "C46_lookat_transpose_refuted",
    "C46_lookat_eye",
    "C46_lookat_target",
    "C46_lookat_rigid_partial",
    "C46_lookat_rigid_refuted",
    "C46_lookat_defaults_refuted",
    "C46_align_partial",
    "C46_align_refuted",
    "C46_clamp",
    "C46_clamp_crossed",
    "C46_normalize_partial"
   ],
   "note": "translate, scale, viewport proved. lookat sends the eye to the origin and the target to the negative z axis; rigid up to the 1e-16 of normalize when up is not parallel to the line of sight; refuted otherwise, in particular for the default arguments; its transpose argument is ignored. align maps U to V up to the same tolerance and gives nan exactly for parallel vectors."
  },
  {
   "property": "C47",
   "status": "proved",
   "theorems": [
    "C47_always_a_rotation",
    "C47_drags_compose",
    "C47_places_on_the_ball",
    "C47_axis_of_a_drag",
    "C47_null_axis",
    "C47_errors_do_not_last",
    "C47_count_bounded"
   ],
   "note": "Over exact reals. After any history of drags, assignments and reads the model matrix is orthogonal with determinant 1; a drag composes the earlier rotation with a turn about the axis at right angles to both places on the ball; whatever error the stored quaternion has, 98 drags remove it."
  },
  {
   "property": "C48",
   "status": "partial",
   "theorems": [
    "C48_to_vec2_convention",
    "C48_to_vec3_convention",
    "C48_to_vec4_convention",
    "C48_flat_convention",
    "C48_at_infinity",
    "C48_integer_convention_refuted",
    "C48_vec3_through_vec4",
    "C48_vec2_through_vec3",
    "C48_vec2_through_vec4",
    "C48_vec2_through_vec4_refuted",
    "C48_vec4_through_vec3",
    "C48_refused",
    "C48_refused_refuted",
    "C48_views",
    "C48_views_refused",
    "C48_points_projected",
    "C48_points_reshaped",
    "C48_points_sent"
   ],
   "note": "Documented conventions for every row, kept type, round trips, refused shapes, views, and the perspective division visuals apply. Refuted: to_vec2 of an array without columns raises ValueError; homogeneous integers are refused by to_vec2 and truncated by to_vec3."
  },
  {
   "property": "C49",
   "status": "proved",
   "theorems": [
    "C49_one_or_the_other",
    "C49_order",
    "C49_front_is_anticlockwise",
    "C49_reversing_swaps",
    "C49_first_corner_irrelevant"
   ],
   "note": "Both boolean masks are characterised by the signed area. frontback returns masks, not arrays of triangles as its docstring says; the statement is about the masks."
  },
  {
   "property": "C50",
   "status": "partial",
   "theorems": [
    "C50_sphere_valid",
    "C50_sphere_round",
    "C50_sphere_places",
    "C50_sphere_cells",
    "C50_sphere_closed",
    "C50_polyhedra_valid",
    "C50_icosahedron_refuted",
    "C50_polyhedra_counts",
    "C50_dodecahedron_regular",
    "C50_octahedron_regular",
    "C50_cube_edges",
    "C50_tetrahedron_regular_refuted"
   ],
   "note": "Spheres of every resolution: valid indices, vertices on the sphere, two triangles per cell, no holes. Polyhedra: valid, closed, documented counts, regular dodecahedron and octahedron. Refuted: icosahedron raises NameError; the tetrahedron is not regular."
  },
  {
   "property": "C51",
   "status": "partial",
   "theorems": [
    "C51_canvas_size",
    "C51_canvas_refused",
    "C51_placement",
    "C51_same_place",
    "C51_within_canvas",
    "C51_never_fails",
    "C51_margins",
    "C51_zero_width",
    "C51_zero_height",
    "C51_zero_refuted",
    "C51_zero_measured_refuted",
    "C51_zero_resized_refuted"
   ],
   "note": "Proved for every coordinate and canvas and after every history, except a width or height of 0, which the code replaces by the width the canvas was made with (refuted as stated; three witnesses). The same code in floating point is C130."
  },
  {
   "property": "C52",
   "status": "partial",
   "theorems": [
    "C52_within_limits",
    "C52_one_side",
    "C52_directions",
    "C52_reaches_limits",
    "C52_only_scrolls",
    "C52_aspect",
    "C52_centred",
    "C52_within_limits_refuted",
    "C52_below_limits_refuted",
    "C52_factors"
   ],
   "note": "Proved for cameras made with a zoom within the limits; refuted for others. Aspect, place and centre proved for all histories with a positive zoom. Exact arithmetic."
  },
  {
   "property": "C53",
   "status": "partial",
   "theorems": [
    "C53_pointer",
    "C53_complete_refuted",
    "C53_cut_stays",
    "C53_complete",
    "C53_prefix",
    "C53_success",
    "C53_cached",
    "C53_others_kept",
    "C53_available"
   ],
   "note": "False in general: a call cut while it writes leaves a partial file which every later unforced call returns (C53_complete_refuted, for every file and every cut before its end; C53_cut_stays). Proved: complete contents if no call was cut while writing, whatever requests failed (C53_complete); always the beginning of the complete contents, and all of them when forced (C53_prefix)."
  },
  {
   "property": "C54",
   "status": "partial",
   "theorems": [
    "C54_symmetric",
    "C54_accepts_itself_partial",
    "C54_accepts_itself_uniform",
    "C54_accepts_itself_refuted",
    "C54_accepts_iff_alike",
    "C54_rejects_iff_not_alike",
    "C54_members",
    "C54_sizes",
    "C54_rejects_differences_refuted"
   ],
   "note": "Symmetry is proved for all documents. Self-acceptance is false where two elements of a list cannot be ordered (C54_accepts_itself_refuted); proved for uniform documents. Accepted documents are exactly the alike ones, which ignore the order of list elements, so exchanged coordinates are accepted (C54_rejects_differences_refuted)."
  },
  {
   "property": "C55",
   "status": "partial",
   "theorems": [
    "C55_pixels_in_viewport",
    "C55_number_uses_width",
    "C55_axes_refuted",
    "C55_z_lost",
    "C55_z_refuted"
   ],
   "note": "The scale of two-component values is proved for every viewport. A single number is scaled by the width only and the third component becomes 0, both against the docstring: refuted, with the exact behaviour proved."
  },
  {
   "property": "C56",
   "status": "partial",
   "theorems": [
    "C56_last_matrices",
    "C56_transform",
    "C56_resize",
    "C56_viewport",
    "C56_declaration_refuted"
   ],
   "note": "Stored matrices, transform and viewport proved for all histories; the declaration-only call of the comment is refuted since the initial matrices are identities."
  },
  {
   "property": "C57",
   "status": "proved",
   "theorems": [
    "C57_closes_at_start"
   ],
   "note": "Assumes that an arc ends at its end point (matplotlib's arcs, not modelled)."
  },
  {
   "property": "C58",
   "status": "partial",
   "theorems": [
    "C58_camera_refuted"
   ],
   "note": "Refuted: every call raises TypeError because scale and translate receive numbers instead of vectors. Nothing remains to be proved in the positive."
  },
  {
   "property": "C59",
   "status": "partial",
   "theorems": [
    "C59_initial_angles",
    "C59_assigned_angles_shown",
    "C59_read_back_partial",
    "C59_read_is_kept",
    "C59_read_back_refuted",
    "C59_keeps_the_other_angle_refuted"
   ],
   "note": "The view always shows the assigned angles. Reading back is right strictly between -90 and 90 degrees; refuted otherwise (half turn reads 0, 90 degrees raises ZeroDivisionError). Refuted: assigning one angle forgets all drags since the last assignment."
  },
  {
   "property": "C60",
   "status": "partial",
   "theorems": [
    "C60_sphere_outward",
    "C60_dodecahedron_outward",
    "C60_octahedron_refuted",
    "C60_cube_refuted",
    "C60_tetrahedron_refuted"
   ],
   "note": "Spheres (every radius > 0 and resolution) and the dodecahedron face outwards. Refuted: the octahedron goes the other way; faces of the cube and the tetrahedron disagree with each other."
  },
  {
   "property": "C61",
   "status": "partial",
   "theorems": [
    "C61_square_units",
    "C61_square_viewport",
    "C61_shorter_side",
    "C61_new_viewport_refuted"
   ],
   "note": "Proved from the first resize event on, and from the start for square viewports; refuted for a new viewport that is not square."
  },
  {
   "property": "C62",
   "status": "partial",
   "theorems": [
    "C62_resize_twice",
    "C62_resize_same",
    "C62_landscape_refuted",
    "C62_new_viewport_refuted"
   ],
   "note": "Proved right after a resize, and after any history for viewports not wider than high; refuted for wider ones after zooming and for new ones."
  },
  {
   "property": "C63",
   "status": "partial",
   "theorems": [
    "C63_passes_iff",
    "C63_any_order",
    "C63_json_files",
    "C63_images",
    "C63_not_compared",
    "C63_other_files",
    "C63_ends_with",
    "C63_capitals_refuted",
    "C63_lower"
   ],
   "note": "Proved for all folders: success exactly when every expected file named .png or .json is matched. Names in capitals are not looked at (C63_capitals_refuted)."
  },
  {
   "property": "C64",
   "status": "partial",
   "theorems": [
    "C64_arguments",
    "C64_sorted",
    "C64_runs_all",
    "C64_stops",
    "C64_failures_reported_refuted",
    "C64_environment_refuted"
   ],
   "note": "Order, arguments and stopping are proved. False: without the flag the status is 0 even when examples fail (C64_failures_reported_refuted), and with GSP_SC_INTERACTIVE already set nothing runs (C64_environment_refuted)."
  },
  {
   "property": "C65",
   "status": "partial",
   "theorems": [
    "C65_calls",
    "C65_once",
    "C65_run",
    "C65_other_figures",
    "C65_disconnected",
    "C65_disconnect_refuted",
    "C65_two_viewports_refuted",
    "C65_release_outside_refuted",
    "C65_wrong_name_refuted"
   ],
   "note": "C65_calls gives, for every history without disconnections, exactly which functions each event calls. False as stated: of two viewports the first is forgotten, a release counts outside the viewport too, a refused connection moves the camera, and of two figures the first is not let go by disconnect (the four _refuted theorems). Functions that fail or touch the camera are in C119."
  },
  {
   "property": "C66",
   "status": "partial",
   "theorems": [
    "C66_drag",
    "C66_moves_add_up",
    "C66_released",
    "C66_not_pressed",
    "C66_view_kept",
    "C66_ortho_kept",
    "C66_connect_ends_drag_refuted"
   ],
   "note": "Proved for every history of connections to known events; false for one case: connecting during a drag ends it (C66_connect_ends_drag_refuted)."
  },
  {
   "property": "C67",
   "status": "partial",
   "theorems": [
    "C67_letter",
    "C67_scalar",
    "C67_same_place",
    "C67_field",
    "C67_field_sound",
    "C67_no_field",
    "C67_index",
    "C67_index_from_start",
    "C67_index_from_end",
    "C67_index_out",
    "C67_no_index",
    "C67_several_refuted",
    "C67_nested_refuted",
    "C67_default_refuted",
    "C67_out",
    "C67_out_letters",
    "C67_out_unknown",
    "C67_out_missing",
    "C67_out_middle",
    "C67_out_shape_refuted"
   ],
   "note": "One letter, one field, rows by index and output variables are proved element by element. Refuted: a key of several letters gives the first only, an index is applied once per nested accessor, evaluate without variables always fails, and the two spellings of one component differ in shape."
  },
  {
   "property": "C68",
   "status": "partial",
   "theorems": [
    "C68_colors",
    "C68_order",
    "C68_ends",
    "C68_no_values",
    "C68_unknown",
    "C68_set_colormap_refuted",
    "C68_zero_refuted"
   ],
   "note": "Proved for bounds that are not 0 or are taken from the values. Refuted: a bound of 0 is ignored, and set_colormap has no effect. matplotlib's colour maps are a parameter."
  },
  {
   "property": "C69",
   "status": "partial",
   "theorems": [
    "C69_contents",
    "C69_bad_size",
    "C69_no_data",
    "C69_text",
    "C69_bad_text",
    "C69_length",
    "C69_length_refuted",
    "C69_rows_refuted",
    "C69_set_data_refuted",
    "C69_lists",
    "C69_list_length_refuted"
   ],
   "note": "Contents, repeated reading, live memory and refusals are proved for all data. Refuted: set_data does nothing, a length is whatever was given (and the number of rows for arrays of vectors), and a List with one size has no length (NameError). Of a dtype only the item size is modelled."
  },
  {
   "property": "C70",
   "status": "partial",
   "theorems": [
    "C70_saved",
    "C70_sent",
    "C70_sent_first",
    "C70_sent_refuted",
    "C70_updates",
    "C70_update_bytes"
   ],
   "note": "Proved for saved sessions over all histories, and for sent ones whose arrays do not change afterwards; what a receiver gets in general is proved exactly. Refuted: updates sent after the creation of a buffer are lost."
  },
  {
   "property": "C71",
   "status": "partial",
   "theorems": [
    "C71_target",
    "C71_pairs",
    "C71_source",
    "C71_colors",
    "C71_sequences",
    "C71_markers",
    "C71_arrays",
    "C71_objects",
    "C71_never_refuted",
    "C71_canvas_refuted",
    "C71_unsavable_refuted"
   ],
   "note": "Right type and contents proved for the converters that give something. Refuted: six of the fifteen always raise (str to memoryview, Color to list and tuple, ndarray to Matrix, list to Buffer and List), an identifier given for a canvas may be of anything, and a queue holding a conversion that fails cannot be saved (proved for every queue)."
  },
  {
   "property": "C72",
   "status": "partial",
   "theorems": [
    "C72_matrix",
    "C72_sequences_refuted",
    "C72_size_refuted",
    "C72_doubles_refuted",
    "C72_strided_refuted"
   ],
   "note": "Proved for contiguous float32 arrays, which keep their memory and number of values. Refuted: tuples and lists raise, any number of values passes, double precision gives twice as many values, strided arrays raise."
  },
  {
   "property": "C73",
   "status": "proved",
   "theorems": [
    "C73_ends",
    "C73_radii",
    "C73_direction",
    "C73_path",
    "C73_degenerate",
    "C73_never_degenerate"
   ],
   "note": "Exact reals. C73_path assumes that matplotlib's arc starts and ends at the angles it is given."
  },
  {
   "property": "C74",
   "status": "partial",
   "theorems": [
    "C74_every_marker",
    "C74_numbers",
    "C74_closed_refuted",
    "C74_centred_partial",
    "C74_shapes",
    "C74_shapes_exist",
    "C74_one_type_refuted"
   ],
   "note": "Paths, numbering and the attachment of types and angles are proved. Refuted: the outlines of square, minus and diamond are not closed (C74_closed_refuted), the arrow is not centred (C74_centred_partial is an equivalence), an array holding one type for several positions is refused (C74_one_type_refuted). matplotlib's MarkerStyle and rotation are parameters."
  },
  {
   "property": "C75",
   "status": "partial",
   "theorems": [
    "C75_axis_refuted"
   ],
   "note": "Refuted: the value of the axis is never used, only whether there is one (C75_axis_refuted); markers are aligned on their position instead."
  },
  {
   "property": "C76",
   "status": "partial",
   "theorems": [
    "C76_vectors_matrices",
    "C76_scalars",
    "C76_negative",
    "C76_documented_refuted",
    "C76_unknown"
   ],
   "note": "shape and type proved for every constructor and count; C76_documented_refuted: the docstrings of byte, ubyte, float, imat2 and umat2 are wrong, all others right"
  },
  {
   "property": "C77",
   "status": "partial",
   "theorems": [
    "C77_times_partial",
    "C77_not_rendered",
    "C77_once_refuted"
   ],
   "note": "segments, paths and polygons once, and never where not rendered: proved for every history; C77_once_refuted: points, markers and pixels are added to the axes twice (scatter adds them, then add_collection)"
  },
  {
   "property": "C78",
   "status": "partial",
   "theorems": [
    "C78_render",
    "C78_others_kept",
    "C78_resize_partial",
    "C78_one_viewport_partial",
    "C78_resize_refuted"
   ],
   "note": "renders proved to show the last given matrices and change nothing else; C78_resize_refuted: after a resize a visual is seen in all its viewports with the matrices given last for any of them; kept when it is in one viewport"
  },
  {
   "property": "C79",
   "status": "partial",
   "theorems": [
    "C79_laid_out",
    "C79_drawn_refuted"
   ],
   "note": "layout before rendering proved; C79_drawn_refuted: the canvas connects its drawing first, so the resize event draws the old layout"
  },
  {
   "property": "C80",
   "status": "partial",
   "theorems": [
    "C80_replay",
    "C80_resize_records_refuted"
   ],
   "note": "replay proved for every history; C80_resize_records_refuted: each resize records one render per visual and viewport"
  },
  {
   "property": "C81",
   "status": "partial",
   "theorems": [
    "C81_protocol",
    "C81_backend_refuted",
    "C81_segments_refuted"
   ],
   "note": "Holds for every class of the protocol and for every class of the backend but segments, which the backend records as points: loading them raises TypeError, for all arguments."
  },
  {
   "property": "C82",
   "status": "partial",
   "theorems": [
    "C82_executed_partial",
    "C82_missing_refuted",
    "C82_operators"
   ],
   "note": "Proved for core and visual classes but for data; the backend has no data and no transform, so those creations raise AttributeError."
  },
  {
   "property": "C83",
   "status": "partial",
   "theorems": [
    "C83_lines_partial",
    "C83_loaded_refuted",
    "C83_unannotated_refuted",
    "C83_formats_partial",
    "C83_text_objects_refuted",
    "C83_queue_partial",
    "C83_empty_refuted",
    "C83_text_files_refuted"
   ],
   "note": "Proved for commands whose parameters are annotated and print on one line. Loaded commands have no annotations and raise TypeError, parameters without annotation KeyError, objects KeyError in the plain format, and an empty queue prints the active one."
  },
  {
   "property": "C84",
   "status": "partial",
   "theorems": [
    "C84_caps_partial",
    "C84_errors",
    "C84_change_refuted",
    "C84_joins_styles_refuted",
    "C84_segments_refuted"
   ],
   "note": "Proved for the caps of paths at their first rendering in a viewport. Later changes, the caps of segments, and all joins and styles are refuted for every history."
  },
  {
   "property": "C85",
   "status": "partial",
   "theorems": [
    "C85_crop_partial",
    "C85_crop_succeeds",
    "C85_no_bound_refuted",
    "C85_empty_refuted",
    "C85_thinned"
   ],
   "note": "Proved with strict bounds. A bound left out drops the points farthest on that side, always at least one, and raises on an empty cloud."
  },
  {
   "property": "C86",
   "status": "partial",
   "theorems": [
    "C86_block_partial",
    "C86_empty_first_refuted",
    "C86_cut_short_refuted",
    "C86_terminates_refuted",
    "C86_blanks"
   ],
   "note": "Proved for blocks starting with a line of text whose other lines are empty or at least as indented. Refuted for an empty first line, a less indented line, and when the source is not found (endless loop)."
  },
  {
   "property": "C87",
   "status": "partial",
   "theorems": [
    "C87_synced",
    "C87_others_refuted",
    "C87_own_viewport_refuted",
    "C87_viewport_needed",
    "C87_words"
   ],
   "note": "Proved for the first viewport. Other viewports given do not follow the camera, and every visual listed is drawn in the first viewport too."
  },
  {
   "property": "C88",
   "status": "partial",
   "theorems": [
    "C88_session_partial",
    "C88_out_of_step_refuted",
    "C88_unreadable"
   ],
   "note": "Whole sessions: record, save, load, run; values converted late may become objects made before. Guarded by the identifiers of the loading process being in step (refuted otherwise, C04). Bodies on the client return normally and record nothing themselves; conversions record nothing; a command that raises on the server leaves the registry alone."
  },
  {
   "property": "C89",
   "status": "partial",
   "theorems": [
    "C89_collected_partial",
    "C89_mesh_refuted",
    "C89_ragged_refused",
    "C89_repaired",
    "C89_words",
    "C89_fit_center_refuted",
    "C89_textures_refuted"
   ],
   "note": "The lists collected are proved right for every file; the call is refuted: it raises for every file, as do fit and center for every non-empty set of vertices.  With a fit that works the result is proved right (C89_repaired)."
  },
  {
   "property": "C90",
   "status": "partial",
   "theorems": [
    "C90_rounding",
    "C90_image_partial",
    "C90_size_partial",
    "C90_one_short",
    "C90_image_iff",
    "C90_short_refused",
    "C90_image_refuted",
    "C90_measured_refuted",
    "C90_wrong_picture_refuted",
    "C90_measured_figure"
   ],
   "note": "True for every size at resolutions 2^i or 2^i+2^j (72, 96, 144...) and for whole inches; refuted at 100 dpi (29 pixels), for sizes given as measures, and once with a wrong picture instead of an error (7x8 at 107 dpi). Resolutions that are not whole numbers are not modelled."
  },
  {
   "property": "C91",
   "status": "partial",
   "theorems": [
    "C91_library_partial",
    "C91_unit_refuted"
   ],
   "note": "For every program over gsp.core and gsp.visual without Data the only errors are those of the backend's bodies; refuted with transforms, which the backend lacks. Bodies that record calls themselves are not modelled, as in C88."
  },
  {
   "property": "C92",
   "status": "partial",
   "theorems": [
    "C92_rebuilt_partial",
    "C92_operands_refuted",
    "C92_nested_refuted",
    "C92_links_refuted",
    "C92_classes",
    "C92_attributes",
    "C92_letters",
    "C92_methods",
    "C92_recorded",
    "C92_set_colormap",
    "C92_rebind_refused",
    "C92_apart"
   ],
   "note": "Proved for programs that set operands afterwards, copy accessors, units and operators on them, and bind to numbers. Refuted for operators given their operands (they come back without), for operators on compound transforms (a new process cannot load the file), for links to transforms and buffers, and for copies of colour maps."
  },
  {
   "property": "C93",
   "status": "partial",
   "theorems": [
    "C93_session_partial",
    "C93_exact_partial",
    "C93_names_refuted",
    "C93_class_refuted",
    "C93_twice_refuted"
   ],
   "note": "Proved for every program over classes without a constructor of their own or with one that passes its parameters on under the same names, plain arguments, any bodies and converters, any loading process able to load. Refuted for other parameter names, for constructors that change what they hand over (applied twice) and for inherited dotted names (the object comes back as the base class). Not modelled: arguments and attributes that are protocol objects, bodies that call other recorded methods."
  },
  {
   "property": "C94",
   "status": "partial",
   "theorems": [
    "C94_accurate",
    "C94_errors",
    "C94_agree",
    "C94_monotone",
    "C94_pixels_exact",
    "C94_inch_nearest",
    "C94_inch_exact",
    "C94_points",
    "C94_centimetres_refuted",
    "C94_millimetres_refuted"
   ],
   "note": "Accurate to 10 times 2^-53 in every unit, context and component, with the same errors; monotone; pixels and exact products exact; 72 points are an inch exactly at every whole resolution. Refuted as stated for centimetres and millimetres: 2.54 cm at 64 dpi are less than 64 pixels. No overflow or underflow is modelled."
  },
  {
   "property": "C95",
   "status": "partial",
   "theorems": [
    "C95_round_trip",
    "C95_injective",
    "C95_strings_refuted",
    "C95_strings",
    "C95_refusals",
    "C95_ascii",
    "C95_ascii_lines",
    "C95_cut_short",
    "C95_total"
   ],
   "note": "Proved for all documents, both layouts and all cuts, except that a string with a high surrogate followed by a low one comes back as one character (C95_strings_refuted; C95_strings: exactly then)."
  },
  {
   "property": "C96",
   "status": "partial",
   "theorems": [
    "C96_saved",
    "C96_succeeds",
    "C96_layout",
    "C96_dump_layout",
    "C96_missing",
    "C96_failed_save_refuted",
    "C96_failed_save",
    "C96_failed_conversion",
    "C96_dump_text"
   ],
   "note": "Proved: saved files read back exactly, other files untouched, every cut refused. A failed save destroys the previous file (C96_failed_save_refuted); C96_failed_save says what it leaves, C96_failed_conversion that failing conversions change no file."
  },
  {
   "property": "C97",
   "status": "partial",
   "theorems": [
    "C97_arguments",
    "C97_same",
    "C97_calls",
    "C97_sizes",
    "C97_variables",
    "C97_accepted_partial",
    "C97_transform_refuted",
    "C97_groups_refuted"
   ],
   "note": "False as stated: points, markers and pixels refuse the transforms their signature announces (TypeError), paths and polygons refuse lists whose items have one size (NameError) and transforms as indices. Proved for both packages: arguments become the variables of their names, the classes of the backend do the same as those of the protocol, exactly the proper calls are bound, sizes of all output arrays, and exactly which positions and groups are accepted."
  },
  {
   "property": "C98",
   "status": "proved",
   "theorems": [
    "C98_same",
    "C98_switch"
   ],
   "note": "Refinement: the model of transforms with recording (Journal.v) simulates the one without (Transform.v) for every program of well-typed steps, with the same exceptions; and for all states and steps the transforms do not depend on whether commands are recorded."
  },
  {
   "property": "C99",
   "status": "partial",
   "theorems": [
    "C99_text",
    "C99_printed_partial",
    "C99_number_refuted",
    "C99_endless_refuted",
    "C99_told_apart",
    "C99_parentheses_refuted",
    "C99_queue",
    "C99_commands_apart",
    "C99_object",
    "C99_identified",
    "C99_reloaded_refuted",
    "C99_dump",
    "C99_parameter",
    "C99_creation",
    "C99_three_digits",
    "C99_decimal"
   ],
   "note": "How a transform reads, that those of programs are told apart, and the text of queues and dumps are proved. Refuted: a transform bound to a number raises AttributeError, an operator made its own operand never ends, every operator shown lacks a closing parenthesis, a creation reads as a call after loading."
  },
  {
   "property": "C100",
   "status": "partial",
   "theorems": [
    "C100_page",
    "C100_source_partial",
    "C100_blank_refuted",
    "C100_unclosed_refuted",
    "C100_failed_ansi",
    "C100_failed_json"
   ],
   "note": "Proved for code whose blank lines are empty and whose lines are not a fence. Refuted: a line of fewer spaces than the indentation is lost and shifts the next one, or leaves the block open."
  },
  {
   "property": "C101",
   "status": "partial",
   "theorems": [
    "C101_not_json",
    "C101_no_commands",
    "C101_cases",
    "C101_session",
    "C101_stops",
    "C101_failed_load_refuted",
    "C101_odd_commands",
    "C101_only_sessions_refuted",
    "C101_readonly",
    "C101_only_commands",
    "C101_agrees"
   ],
   "note": "Text that is no JSON and files without commands change nothing; the loop is followed entry by entry. False as stated: a failed load has already emptied the queue and pushed the commands before the bad entry (C101_failed_load_refuted), and empty text or an empty dictionary pass for a list of commands (C101_only_sessions_refuted). Characters above 255 and floats as in C96."
  },
  {
   "property": "C102",
   "status": "partial",
   "theorems": [
    "C102_redone_partial",
    "C102_format",
    "C102_unknown_format",
    "C102_saved",
    "C102_not_loaded",
    "C102_ending_refuted"
   ],
   "note": "Composes C88, C96 and C101 for every point at which writing stops; the guards of C88 apply (identifiers in step, bodies that record nothing themselves). Refuted: a file named just .json has no format (C102_ending_refuted). Loading a file that is refused still forgets the registered objects and empties the active queue (C102_not_loaded)."
  },
  {
   "property": "C103",
   "status": "proved",
   "theorems": [
    "C103_reads",
    "C103_refused",
    "C103_unambiguous",
    "C103_written"
   ],
   "note": "Exactly the texts of the grammar are read, with the value the grammar gives; all others raise ValueError. As in C95 Python's limits on nesting and on the digits of integers are left out, and a float stands for its text."
  },
  {
   "property": "C104",
   "status": "proved",
   "theorems": [
    "C104_where",
    "C104_usable",
    "C104_resized",
    "C104_nearer_covers",
    "C104_flat_covers",
    "C104_only_in_front_refuted",
    "C104_pixels_refuted"
   ],
   "note": "numbers are real; two parts are false of the code and shown as refuted: vertices behind the eye are drawn at their mirror image, and pixels are drawn nearest first"
  },
  {
   "property": "C105",
   "status": "proved",
   "theorems": [
    "C105_any_events",
    "C105_in_view",
    "C105_one_unit",
    "C105_no_more",
    "C105_origin",
    "C105_matrices",
    "C105_flat"
   ],
   "note": "numbers are real; the viewport is one that was resized (drawn), and zoom at least 1 for staying inside it; at other zooms C105_one_unit bounds the distance from the middle"
  },
  {
   "property": "C106",
   "status": "proved",
   "theorems": [
    "C106_drag_follows",
    "C106_whole_scene_turns",
    "C106_retraced",
    "C106_mouse_moves_beyond",
    "C106_mouse_follows_refuted",
    "C106_mouse_back_refuted",
    "C106_matrices",
    "C106_flat"
   ],
   "note": "numbers are real; the two claims about the mouse are false of the code and shown as refuted, with what holds instead (C106_mouse_moves_beyond)"
  },
  {
   "property": "C107",
   "status": "proved",
   "theorems": [
    "C107_segments",
    "C107_odd",
    "C107_outlines",
    "C107_markers",
    "C107_whole",
    "C107_outlines_nearer",
    "C107_segments_nearer",
    "C107_markers_nearer",
    "C107_outlines_flat",
    "C107_segments_flat",
    "C107_crossing_refuted"
   ],
   "note": "For every sorting argsort and attributes that fit and are not ambiguous (C22's conditions). The claim that the nearer covers the farther where things cross is refuted (C107_crossing_refuted); the guarded version is C107_whole with its instances for perspective and flat cameras. How matplotlib joins corners is not modelled."
  },
  {
   "property": "C108",
   "status": "partial",
   "theorems": [
    "C108_recorded",
    "C108_replayed",
    "C108_stopped",
    "C108_replay_refuted",
    "C108_times",
    "C108_raised_refuted",
    "C108_unrecorded_partial",
    "C108_absorbed_partial"
   ],
   "note": "What is recorded and what a replay does are proved for all bodies. Equality of the states is refuted (C108_replay_refuted, C108_raised_refuted, with the exact number of times in C108_times) and proved for inner calls that are not recorded or make no difference. The state of all objects is one value here; identifiers and conversions are followed by C88 and C93."
  },
  {
   "property": "C109",
   "status": "proved",
   "theorems": [
    "C109_parts",
    "C109_screen",
    "C109_each",
    "C109_told",
    "C109_resized",
    "C109_resized_refuted",
    "C109_outside",
    "C109_goes_on",
    "C109_points",
    "C109_in_view",
    "C109_cameras",
    "C109_pictures",
    "C109_rendered"
   ],
   "note": "Proved for all visuals, data, onRender functions, cameras, viewports and histories; refuted right after a change of size (C109_resized_refuted, what is shown then in C109_resized). One viewport and one window with the camera; data change by the example's onRender only; real numbers."
  },
  {
   "property": "C110",
   "status": "partial",
   "theorems": [
    "C110_levels",
    "C110_front",
    "C110_front_refuted",
    "C110_fixed",
    "C110_fixed_refuted",
    "C110_flat",
    "C110_across",
    "C110_nothing_refuted",
    "C110_rendered",
    "C110_running"
   ],
   "note": "Exact levels for perspective and orthographic projections, and for running examples (C110_running). False when all distances are equal (C110_front_refuted), for no points (C110_nothing_refuted) and for a limit of zero (C110_fixed_refuted). Points behind the eye are not covered."
  },
  {
   "property": "C111",
   "status": "partial",
   "theorems": [
    "C111_drawn",
    "C111_magnified",
    "C111_aligned",
    "C111_aligned_turned",
    "C111_aligned_pixels",
    "C111_magnified_refuted",
    "C111_goes_on",
    "C111_rendered"
   ],
   "note": "Proved for all histories (C111_drawn, C111_goes_on); the common factor (C111_magnified) from any moment at which the view is as wide as the zoom says (C111_aligned, C111_aligned_turned, C111_aligned_pixels); refuted after a change of size otherwise (C111_magnified_refuted). Perspective camera for C111_drawn; real numbers."
  },
  {
   "property": "C112",
   "status": "partial",
   "theorems": [
    "C112_points",
    "C112_segments",
    "C112_meter_refuted",
    "C112_scene",
    "C112_perspective_refuted",
    "C112_meter_elsewhere",
    "C112_rendered"
   ],
   "note": "Proved for every settled history with the orthographic camera (C112_points, C112_segments, C112_rendered) and for any camera where the scene is shown (C112_scene); refuted for meters (C112_meter_refuted) and at every moment with the default camera (C112_perspective_refuted). Between a change of size and the next drawing C109_resized applies. Real numbers."
  },
  {
   "property": "C113",
   "status": "proved",
   "theorems": [
    "C113_never_distorted",
    "C113_lengths_kept",
    "C113_follows_the_exact",
    "C113_short_drags"
   ],
   "note": "rounding to nearest of every operation, without overflow; the mathematical library is any within two units in the last place; the accuracy leaves out readings of angles and drags across more than nine tenths of the ball"
  },
  {
   "property": "C114",
   "status": "partial",
   "theorems": [
    "C114_size",
    "C114_at_point",
    "C114_edges",
    "C114_grid",
    "C114_tiles",
    "C114_outside",
    "C114_wheel",
    "C114_untouched",
    "C114_never_fails",
    "C114_square",
    "C114_multiple",
    "C114_pixels_refuted",
    "C114_mixed_refuted"
   ],
   "note": "Proved for every history: what is at each point, grids of shares, pixels and lengths, the wheel, what each step leaves alone, equal units after a resize, no errors. Refuted: a layout in pixels leaves a gap once the window grows (C114_pixels_refuted), pixels beside shares overlap once it shrinks (C114_mixed_refuted). A width or height of 0 is excluded (C51)."
  },
  {
   "property": "C115",
   "status": "partial",
   "theorems": [
    "C115_elsewhere_partial",
    "C115_asked",
    "C115_points",
    "C115_objects"
   ],
   "note": "Proved for every program, on files as they are written. Missing: visuals are not compared, lengths are ints and floats (transforms cannot be sent, C91_unit_refuted), and the hypotheses of C88 remain (C88_out_of_step_refuted). That colours keep their meaning through the file is a hypothesis."
  },
  {
   "property": "C116",
   "status": "partial",
   "theorems": [
    "C116_elsewhere_partial",
    "C116_drawn",
    "C116_made",
    "C116_colors_refuted",
    "C116_session_refuted",
    "C116_parts_refuted"
   ],
   "note": "Proved for points without matrices, for every program and on files as they are written: flat attributes and positions whose buffer holds exactly their numbers. Refuted for colours with a row for each point (C116_colors_refuted, C116_session_refuted) and for positions that are part of an array (C116_parts_refuted). Missing: other visuals, and matrices (which cannot be saved, C71). That texts and colours keep their meaning through the file is a hypothesis."
  },
  {
   "property": "C117",
   "status": "partial",
   "theorems": [
    "C117_elsewhere_partial",
    "C117_render",
    "C117_made",
    "C117_points",
    "C117_pixels",
    "C117_paths",
    "C117_polygons",
    "C117_no_paths",
    "C117_markers",
    "C117_pixels_refuted",
    "C117_pixels_session_refuted",
    "C117_axis_refuted"
   ],
   "note": "Proved for every program with visuals of five kinds without matrices: positions (but of pixels) whose buffer holds exactly their numbers, other arrays with one axis, other values that keep their meaning. Refuted for pixels (C117_pixels_refuted, C117_pixels_session_refuted) and for markers with an axis (C117_axis_refuted). C117_no_paths: paths and polygons without any path raise when rendered. Missing: segments (recorded as points, C81), lists as indices (cannot be saved, C71), matrices, colours in rows (C116_colors_refuted)."
  },
  {
   "property": "C118",
   "status": "proved",
   "theorems": [
    "C118_polygons",
    "C118_inside",
    "C118_apart",
    "C118_drawn",
    "C118_spiral",
    "C118_assigned",
    "C118_attributes",
    "C118_sphere",
    "C118_segments",
    "C118_curve",
    "C118_corners",
    "C118_edges"
   ],
   "note": "For all numbers of parts, over the reals. Drawing is proved for the polygons, for n different from 2: with four polygons the four numbers of a colour are taken as one value each (C38_colour_refuted). Colours from colormaps and the points of a random scene are not part of it."
  },
  {
   "property": "C119",
   "status": "partial",
   "theorems": [
    "C119_calls",
    "C119_keeps",
    "C119_same",
    "C119_ends",
    "C119_one",
    "C119_run_inside_refuted",
    "C119_breeding_refuted"
   ],
   "note": "Proved for functions whose actions on the camera are connect, disconnect, run, save and raise, chosen from everything seen so far; they do not catch errors of the camera's methods nor assign its attributes. Calls and failures (C119_calls) need functions of that event that do not run the camera; ending (C119_ends) needs finitely many functions and motion functions that do not run it, and both conditions are shown needed by C119_run_inside_refuted and C119_breeding_refuted."
  },
  {
   "property": "C120",
   "status": "partial",
   "theorems": [
    "C120_shown",
    "C120_colors",
    "C120_refused",
    "C120_empty_refuted"
   ],
   "note": "Proved from the file to the picture, over the reals. A bound left out drops the outermost points and an empty cloud is refused (C120_empty_refuted, C85_no_bound_refuted), and the nearer pixels are drawn first (C104_pixels_refuted). Reading the zip archive and the rounding of the division are not part of it."
  },
  {
   "property": "C121",
   "status": "proved",
   "theorems": [
    "C121_close",
    "C121_pixels",
    "C121_order",
    "C121_finite",
    "C121_any_matrices",
    "C121_sums",
    "C121_computed"
   ],
   "note": "Proved for the perspective camera at its default distance of five, all scales from a thousandth to a thousand. The entries of projection and view are taken to be within two roundings of the exact ones, which C125 proves; that no number overflows is C124; the double precision arithmetic of the axes of matplotlib is not part of it."
  },
  {
   "property": "C122",
   "status": "proved",
   "theorems": [
    "C122_points",
    "C122_pixels",
    "C122_drawn"
   ],
   "note": "Proved for Points and for Pixels, which draws the other way around (C104_pixels_refuted), with the perspective camera at its default distance. That no number overflows is C124; the arithmetic of matplotlib's axes is not part of it."
  },
  {
   "property": "C123",
   "status": "proved",
   "theorems": [
    "C123_segments",
    "C123_outlines",
    "C123_markers",
    "C123_drawn",
    "C123_sums"
   ],
   "note": "Proved for the four visuals with the perspective camera at its default distance. C123_sums bounds a sum of any number of terms. That no number overflows is C124; the arithmetic of matplotlib's axes is not part of it."
  },
  {
   "property": "C124",
   "status": "proved",
   "theorems": [
    "C124_vertex",
    "C124_keys",
    "C124_any_matrices",
    "C124_unbounded_refuted"
   ],
   "note": "C124_unbounded_refuted: with matrices that scale by 2^70 twice even the origin is lost, so the bound on the entries is needed. Items of more than eight million vertices are not covered by C124_keys."
  },
  {
   "property": "C125",
   "status": "proved",
   "theorems": [
    "C125_perspective",
    "C125_ortho",
    "C125_scale_translate",
    "C125_rotations",
    "C125_view",
    "C125_camera",
    "C125_close",
    "C125_pixels",
    "C125_any_near_refuted"
   ],
   "note": "C125_any_near_refuted shows why the near distance is bounded from below. glm.rotate, lookat, align and fit_unit_cube are not modelled in floating point; angles of opening above 110 degrees are not covered."
  },
  {
   "property": "C126",
   "status": "proved",
   "theorems": [
    "C126_exact",
    "C126_pixel",
    "C126_close",
    "C126_order",
    "C126_points",
    "C126_pixels",
    "C126_always"
   ],
   "note": "Segments, paths, polygons and markers under the flat camera are in C127; the double precision arithmetic of the axes of matplotlib is not part of it."
  },
  {
   "property": "C127",
   "status": "proved",
   "theorems": [
    "C127_segments",
    "C127_outlines",
    "C127_markers",
    "C127_drawn"
   ],
   "note": "Simplifications are those of C123 and C126."
  },
  {
   "property": "C128",
   "status": "proved",
   "theorems": [
    "C128_within_limits",
    "C128_directions",
    "C128_reaches_limits",
    "C128_close",
    "C128_aspect",
    "C128_square",
    "C128_reach",
    "C128_idle",
    "C128_same_aspect_refuted"
   ],
   "note": "C128_same_aspect_refuted shows that the proportions are not kept exactly. What matplotlib does with limits that are almost equal is not part of it."
  },
  {
   "property": "C129",
   "status": "proved",
   "theorems": [
    "C129_sizes",
    "C129_order",
    "C129_zooming_in"
   ],
   "note": "That the C library's pow is right to the last digit is a hypothesis, met by correct rounding (C129_case). Pictures of such points over the real numbers are in C111."
  },
  {
   "property": "C130",
   "status": "proved",
   "theorems": [
    "C130_canvas",
    "C130_canvas_exact_refuted",
    "C130_edges",
    "C130_neighbours",
    "C130_both_ways",
    "C130_whole",
    "C130_within_refuted",
    "C130_empty_refuted",
    "C130_empty",
    "C130_fractions",
    "C130_resolution",
    "C130_resized",
    "C130_resized_fractions",
    "C130_resized_empty",
    "C130_filled_refuted"
   ],
   "note": "C130_canvas_exact_refuted, C130_within_refuted, C130_empty_refuted and C130_filled_refuted show that exact sizes, fractions within one, empty viewports and full ones after resizing are too much to ask. That matplotlib keeps the sum of place and extent as the second edge is part of the model."
  }
 ]
}