{
 "claims": [
  {
   "property": "C01",
   "status": "proved",
   "theorems": [
    "C01_vec2_componentwise",
    "C01_vec3_componentwise",
    "C01_vec4_componentwise"
   ],
   "note": ""
  },
  {
   "property": "C02",
   "status": "proved",
   "theorems": [
    "C02_vec2_assign",
    "C02_vec3_assign",
    "C02_vec4_assign",
    "C02_ivec2_assign",
    "C02_ivec3_assign",
    "C02_ivec4_assign",
    "C02_bvec2_assign",
    "C02_bvec3_assign",
    "C02_bvec4_assign",
    "C02_quat_assign"
   ],
   "note": ""
  },
  {
   "property": "C03",
   "status": "proved",
   "theorems": [
    "C03_vec2_members",
    "C03_vec3_members",
    "C03_vec4_members",
    "C03_ivec2_members",
    "C03_ivec3_members",
    "C03_ivec4_members",
    "C03_vec_constructors",
    "C03_ivec_constructors",
    "C03_bvec_constructors",
    "C03_quat_constructors",
    "C03_mat_constructors"
   ],
   "note": ""
  },
  {
   "property": "C04",
   "status": "proved",
   "theorems": [
    "C04_vec2_swizzles",
    "C04_vec3_swizzles",
    "C04_vec4_swizzles",
    "C04_ivec2_swizzles",
    "C04_ivec3_swizzles",
    "C04_ivec4_swizzles"
   ],
   "note": ""
  },
  {
   "property": "C05",
   "status": "proved",
   "theorems": [
    "C05_index_in_range",
    "C05_index_write",
    "C05_index_guarded",
    "C05_index_release",
    "C05_index_clamped",
    "C05_dim2_guard_refuted"
   ],
   "note": ""
  },
  {
   "property": "C06",
   "status": "proved",
   "theorems": [
    "C06_vec2_accessor",
    "C06_ivec2_accessor",
    "C06_vec3_accessor",
    "C06_ivec3_accessor",
    "C06_vec4_accessor",
    "C06_ivec4_accessor",
    "C06_same_accessor_copies_all",
    "C06_same_accessor_refuted"
   ],
   "note": ""
  },
  {
   "property": "C07",
   "status": "proved",
   "theorems": [
    "C07_float_equality",
    "C07_exact_equality"
   ],
   "note": ""
  },
  {
   "property": "C08",
   "status": "proved",
   "theorems": [
    "C08_value_ptr_layout",
    "C08_make_round_trip",
    "C08_make_bounds"
   ],
   "note": ""
  },
  {
   "property": "C09",
   "status": "proved",
   "theorems": [
    "C09_ivec2_exact",
    "C09_ivec2_neg",
    "C09_ivec3_exact",
    "C09_ivec3_neg",
    "C09_ivec4_exact",
    "C09_ivec4_neg",
    "C09_bit_results_fit"
   ],
   "note": ""
  },
  {
   "property": "C10",
   "status": "proved",
   "theorems": [
    "C10_ivec2_order",
    "C10_ivec3_order",
    "C10_ivec4_order"
   ],
   "note": ""
  },
  {
   "property": "C11",
   "status": "proved",
   "theorems": [
    "C11_bvec2",
    "C11_bvec3",
    "C11_bvec4"
   ],
   "note": ""
  },
  {
   "property": "C12",
   "status": "proved",
   "theorems": [
    "C12_equal_keys",
    "C12_hash_is_word"
   ],
   "note": ""
  },
  {
   "property": "C13",
   "status": "proved",
   "theorems": [
    "C13_float",
    "C13_aggregates",
    "C13_signed_zero_refuted",
    "C13_signed_zero_y"
   ],
   "note": ""
  },
  {
   "property": "C14",
   "status": "proved",
   "theorems": [
    "C14_scalar_injective",
    "C14_bits"
   ],
   "note": ""
  },
  {
   "property": "C15",
   "status": "proved",
   "theorems": [
    "C15_last_components_injective",
    "C15_vec2_collisions",
    "C15_mat4_ignores_columns",
    "C15_permutation_invariant",
    "C15_equal_components_cancel"
   ],
   "note": ""
  },
  {
   "property": "C16",
   "status": "proved",
   "theorems": [
    "C16_min_max",
    "C16_clamp",
    "C16_componentwise"
   ],
   "note": ""
  },
  {
   "property": "C17",
   "status": "proved",
   "theorems": [
    "C17_abs",
    "C17_sign",
    "C17_sign_abs",
    "C17_int"
   ],
   "note": ""
  },
  {
   "property": "C18",
   "status": "proved",
   "theorems": [
    "C18_floor",
    "C18_ceil",
    "C18_trunc",
    "C18_round",
    "C18_nonfinite"
   ],
   "note": ""
  },
  {
   "property": "C19",
   "status": "proved",
   "theorems": [
    "C19_range",
    "C19_exact_nonneg",
    "C19_zero",
    "C19_real",
    "C19_below_one_refuted"
   ],
   "note": ""
  },
  {
   "property": "C20",
   "status": "proved",
   "theorems": [
    "C20_real",
    "C20_range_refuted"
   ],
   "note": ""
  },
  {
   "property": "C21",
   "status": "proved",
   "theorems": [
    "C21_even",
    "C21_agreement",
    "C21_odd_integers"
   ],
   "note": ""
  },
  {
   "property": "C22",
   "status": "proved",
   "theorems": [
    "C22_step",
    "C22_smoothstep",
    "C22_monotone"
   ],
   "note": ""
  },
  {
   "property": "C23",
   "status": "proved",
   "theorems": [
    "C23_start",
    "C23_real",
    "C23_end_refuted",
    "C23_select"
   ],
   "note": ""
  },
  {
   "property": "C24",
   "status": "proved",
   "theorems": [
    "C24_classify",
    "C24_fma",
    "C24_fma_componentwise"
   ],
   "note": ""
  },
  {
   "property": "C25",
   "status": "proved",
   "theorems": [
    "C25_decides",
    "C25_laws"
   ],
   "note": ""
  },
  {
   "property": "C26",
   "status": "proved",
   "theorems": [
    "C26_trigonometric",
    "C26_exponential",
    "C26_common"
   ],
   "note": ""
  },
  {
   "property": "C27",
   "status": "proved",
   "theorems": [
    "C27_exp2_is_exp",
    "C27_exp2_wrong"
   ],
   "note": ""
  },
  {
   "property": "C28",
   "status": "proved",
   "theorems": [
    "C28_sqrt",
    "C28_inversesqrt",
    "C28_exact"
   ],
   "note": ""
  },
  {
   "property": "C29",
   "status": "proved",
   "theorems": [
    "C29_angles"
   ],
   "note": ""
  },
  {
   "property": "C30",
   "status": "proved",
   "theorems": [
    "C30_constants",
    "C30_euler",
    "C30_epsilon"
   ],
   "note": ""
  },
  {
   "property": "C31",
   "status": "proved",
   "theorems": [
    "C31_dot_symmetric",
    "C31_dot",
    "C31_length",
    "C31_distance"
   ],
   "note": ""
  },
  {
   "property": "C32",
   "status": "proved",
   "theorems": [
    "C32_squared",
    "C32_distance2_is_distance",
    "C32_distance2_refuted"
   ],
   "note": ""
  },
  {
   "property": "C33",
   "status": "proved",
   "theorems": [
    "C33_normalize",
    "C33_zero"
   ],
   "note": ""
  },
  {
   "property": "C34",
   "status": "proved",
   "theorems": [
    "C34_anticommutes_f32",
    "C34_self_f32",
    "C34_cross",
    "C34_parallel"
   ],
   "note": ""
  },
  {
   "property": "C35",
   "status": "proved",
   "theorems": [
    "C35_faceforward",
    "C35_against"
   ],
   "note": ""
  },
  {
   "property": "C36",
   "status": "proved",
   "theorems": [
    "C36_reflect"
   ],
   "note": ""
  },
  {
   "property": "C37",
   "status": "proved",
   "theorems": [
    "C37_refract"
   ],
   "note": ""
  },
  {
   "property": "C38",
   "status": "proved",
   "theorems": [
    "C38_orthogonal_f32",
    "C38_orthogonal",
    "C38_branchless",
    "C38_branchless_refuted"
   ],
   "note": ""
  },
  {
   "property": "C39",
   "status": "proved",
   "theorems": [
    "C39_encode",
    "C39_decode_unit",
    "C39_roundtrip_upper",
    "C39_roundtrip_lower_refuted"
   ],
   "note": ""
  },
  {
   "property": "C40",
   "status": "proved",
   "theorems": [
    "C40_ring",
    "C40_scalar",
    "C40_left_product_f32",
    "C40_left_product_mat4_refuted"
   ],
   "note": ""
  },
  {
   "property": "C41",
   "status": "proved",
   "theorems": [
    "C41_entries",
    "C41_product"
   ],
   "note": ""
  },
  {
   "property": "C42",
   "status": "proved",
   "theorems": [
    "C42_determinant"
   ],
   "note": ""
  },
  {
   "property": "C43",
   "status": "proved",
   "theorems": [
    "C43_inverse",
    "C43_singular_f32"
   ],
   "note": ""
  },
  {
   "property": "C44",
   "status": "proved",
   "theorems": [
    "C44_adjugate",
    "C44_transposes",
    "C44_mat2_untransposed",
    "C44_mat2_transpose_refuted"
   ],
   "note": ""
  },
  {
   "property": "C45",
   "status": "proved",
   "theorems": [
    "C45_division",
    "C45_assign"
   ],
   "note": ""
  },
  {
   "property": "C46",
   "status": "proved",
   "theorems": [
    "C46_conversions",
    "C46_homomorphism",
    "C46_mat3_of_mat2_refuted"
   ],
   "note": ""
  },
  {
   "property": "C47",
   "status": "proved",
   "theorems": [
    "C47_entrywise",
    "C47_f32"
   ],
   "note": ""
  },
  {
   "property": "C48",
   "status": "proved",
   "theorems": [
    "C48_elementary",
    "C48_compositions"
   ],
   "note": ""
  },
  {
   "property": "C49",
   "status": "proved",
   "theorems": [
    "C49_lookAt"
   ],
   "note": ""
  },
  {
   "property": "C50",
   "status": "proved",
   "theorems": [
    "C50_ortho"
   ],
   "note": ""
  },
  {
   "property": "C51",
   "status": "proved",
   "theorems": [
    "C51_perspective",
    "C51_assertion",
    "C51_zero_aspect_refuted"
   ],
   "note": ""
  },
  {
   "property": "C52",
   "status": "proved",
   "theorems": [
    "C52_decompose"
   ],
   "note": ""
  },
  {
   "property": "C53",
   "status": "proved",
   "theorems": [
    "C53_hamilton",
    "C53_algebra"
   ],
   "note": ""
  },
  {
   "property": "C54",
   "status": "proved",
   "theorems": [
    "C54_action",
    "C54_isometry",
    "C54_composition"
   ],
   "note": ""
  },
  {
   "property": "C55",
   "status": "proved",
   "theorems": [
    "C55_conjugate",
    "C55_inverse",
    "C55_conjugate_f32"
   ],
   "note": ""
  },
  {
   "property": "C56",
   "status": "proved",
   "theorems": [
    "C56_mat_cast",
    "C56_quat_cast"
   ],
   "note": ""
  },
  {
   "property": "C57",
   "status": "proved",
   "theorems": [
    "C57_angleAxis",
    "C57_axis_angle",
    "C57_rotate"
   ],
   "note": ""
  },
  {
   "property": "C58",
   "status": "proved",
   "theorems": [
    "C58_euler",
    "C58_roundtrip",
    "C58_asin_domain"
   ],
   "note": ""
  },
  {
   "property": "C59",
   "status": "proved",
   "theorems": [
    "C59_lerp_assert",
    "C59_lerp",
    "C59_slerp",
    "C59_lerp_endpoints_f32"
   ],
   "note": ""
  },
  {
   "property": "C60",
   "status": "proved",
   "theorems": [
    "C60_between"
   ],
   "note": ""
  },
  {
   "property": "C61",
   "status": "proved",
   "theorems": [
    "C61_lookAt"
   ],
   "note": ""
  },
  {
   "property": "C62",
   "status": "proved",
   "theorems": [
    "C62_channels",
    "C62_vec3_vec4",
    "C62_clamped"
   ],
   "note": ""
  },
  {
   "property": "C63",
   "status": "proved",
   "theorems": [
    "C63_roundtrip",
    "C63_same_gamma",
    "C63_same_gamma_refuted"
   ],
   "note": ""
  },
  {
   "property": "C64",
   "status": "proved",
   "theorems": [
    "C64_dot",
    "C64_length2"
   ],
   "note": ""
  },
  {
   "property": "C65",
   "status": "proved",
   "theorems": [
    "C65_expressions",
    "C65_cross",
    "C65_matrix_products",
    "C65_determinant",
    "C65_adjugate",
    "C65_quat_product",
    "C65_quat_rotation",
    "C65_quat_rotation_bound",
    "C65_mat3_cast",
    "C65_lerp",
    "C65_translate_scale",
    "C65_reflect"
   ],
   "note": ""
  },
  {
   "property": "C66",
   "status": "proved",
   "theorems": [
    "C66_identity_matrix",
    "C66_identity_quaternion_refuted",
    "C66_power_of_two",
    "C66_sterbenz",
    "C66_negation"
   ],
   "note": ""
  },
  {
   "property": "C67",
   "status": "proved",
   "theorems": [
    "C67_reductions",
    "C67_cross",
    "C67_matrix_vector",
    "C67_matrix_product",
    "C67_all_components",
    "C67_masked"
   ],
   "note": ""
  },
  {
   "property": "C68",
   "status": "proved",
   "theorems": [
    "C68_scalar",
    "C68_ivec2",
    "C68_ivec3",
    "C68_ivec4"
   ],
   "note": ""
  },
  {
   "property": "C69",
   "status": "proved",
   "theorems": [
    "C69_compAdd",
    "C69_compMul",
    "C69_extrema",
    "C69_fold"
   ],
   "note": ""
  },
  {
   "property": "C70",
   "status": "proved",
   "theorems": [
    "C70_mat2_entries",
    "C70_mat3_entries",
    "C70_mat4_entries",
    "C70_quat_entries",
    "C70_mat_assign"
   ],
   "note": ""
  },
  {
   "property": "C71",
   "status": "proved",
   "theorems": [
    "C71_expressions",
    "C71_products",
    "C71_determinants",
    "C71_quaternions",
    "C71_transforms"
   ],
   "note": ""
  },
  {
   "property": "C72",
   "status": "proved",
   "theorems": [
    "C72_length",
    "C72_distance",
    "C72_normalize",
    "C72_range_refuted"
   ],
   "note": ""
  },
  {
   "property": "C73",
   "status": "proved",
   "theorems": [
    "C73_standard",
    "C73_approximation",
    "C73_dark_refuted"
   ],
   "note": ""
  },
  {
   "property": "C74",
   "status": "proved",
   "theorems": [
    "C74_ortho",
    "C74_perspective"
   ],
   "note": ""
  },
  {
   "property": "C75",
   "status": "proved",
   "theorems": [
    "C75_adjugate_transpose",
    "C75_inverse",
    "C75_inverse_transpose"
   ],
   "note": ""
  },
  {
   "property": "C76",
   "status": "proved",
   "theorems": [
    "C76_rotate",
    "C76_angle_axis",
    "C76_rotate_quat"
   ],
   "note": ""
  },
  {
   "property": "C77",
   "status": "proved",
   "theorems": [
    "C77_matrix_products",
    "C77_transforms",
    "C77_quaternion_products",
    "C77_quaternion_drift",
    "C77_sums"
   ],
   "note": ""
  },
  {
   "property": "C78",
   "status": "proved",
   "theorems": [
    "C78_expressions",
    "C78_products",
    "C78_determinants",
    "C78_quaternions",
    "C78_reflect",
    "C78_lengths",
    "C78_common"
   ],
   "note": ""
  },
  {
   "property": "C79",
   "status": "proved",
   "theorems": [
    "C79_expressions",
    "C79_products",
    "C79_determinants",
    "C79_quaternions",
    "C79_transforms",
    "C79_associative",
    "C79_inverse"
   ],
   "note": ""
  },
  {
   "property": "C80",
   "status": "proved",
   "theorems": [
    "C80_expressions",
    "C80_products",
    "C80_determinants",
    "C80_transforms",
    "C80_lengths",
    "C80_normalize"
   ],
   "note": ""
  },
  {
   "property": "C81",
   "status": "proved",
   "theorems": [
    "C81_expressions",
    "C81_products",
    "C81_scalars",
    "C81_inversesqrt",
    "C81_mix",
    "C81_smoothstep_refuted",
    "C81_length"
   ],
   "note": ""
  },
  {
   "property": "C82",
   "status": "proved",
   "theorems": [
    "C82_dominates",
    "C82_axis",
    "C82_normalize",
    "C82_distance",
    "C82_axis_refuted"
   ],
   "note": ""
  },
  {
   "property": "C83",
   "status": "proved",
   "theorems": [
    "C83_quat_cast",
    "C83_axis",
    "C83_refract",
    "C83_slerp",
    "C83_angle",
    "C83_angle_refuted",
    "C83_between",
    "C83_exact_functions"
   ],
   "note": ""
  },
  {
   "property": "C84",
   "status": "proved",
   "theorems": [
    "C84_encode",
    "C84_decode",
    "C84_srgb"
   ],
   "note": ""
  },
  {
   "property": "C85",
   "status": "proved",
   "theorems": [
    "C85_quat_cast",
    "C85_roundtrip",
    "C85_normalized"
   ],
   "note": ""
  },
  {
   "property": "C86",
   "status": "proved",
   "theorems": [
    "C86_source_is_model",
    "C86_calls_terminate",
    "C86_results_typed",
    "C86_aborts",
    "C86_undefined",
    "C86_assign_itself",
    "C86_decompose_shared"
   ],
   "note": ""
  },
  {
   "property": "C87",
   "status": "proved",
   "theorems": [
    "C87_client_agreement",
    "C87_accepted_never_fails"
   ],
   "note": ""
  },
  {
   "property": "C88",
   "status": "proved",
   "theorems": [
    "C88_slerp",
    "C88_normalized",
    "C88_length"
   ],
   "note": ""
  },
  {
   "property": "C89",
   "status": "proved",
   "theorems": [
    "C89_lookAt",
    "C89_distances",
    "C89_quatLookAt"
   ],
   "note": ""
  },
  {
   "property": "C90",
   "status": "proved",
   "theorems": [
    "C90_encode",
    "C90_decode",
    "C90_roundtrip",
    "C90_equator_refuted"
   ],
   "note": ""
  },
  {
   "property": "C91",
   "status": "proved",
   "theorems": [
    "C91_between",
    "C91_turns",
    "C91_opposed",
    "C91_any_angle"
   ],
   "note": ""
  },
  {
   "property": "C92",
   "status": "proved",
   "theorems": [
    "C92_quat",
    "C92_roundtrip",
    "C92_angles",
    "C92_recover",
    "C92_gimbal_refuted"
   ],
   "note": ""
  },
  {
   "property": "C93",
   "status": "proved",
   "theorems": [
    "C93_reflect",
    "C93_refract",
    "C93_faceforward"
   ],
   "note": ""
  },
  {
   "property": "C94",
   "status": "proved",
   "theorems": [
    "C94_decode",
    "C94_encode",
    "C94_roundtrip",
    "C94_lossless",
    "C94_fast"
   ],
   "note": ""
  },
  {
   "property": "C95",
   "status": "proved",
   "theorems": [
    "C95_smoothstep",
    "C95_almost_monotone",
    "C95_mix",
    "C95_fract",
    "C95_mod"
   ],
   "note": ""
  },
  {
   "property": "C96",
   "status": "proved",
   "theorems": [
    "C96_decompose",
    "C96_parts",
    "C96_zero_column_refuted"
   ],
   "note": ""
  },
  {
   "property": "C97",
   "status": "proved",
   "theorems": [
    "C97_roundtrip",
    "C97_accuracy",
    "C97_small_rotation_refuted",
    "C97_default_axis"
   ],
   "note": ""
  },
  {
   "property": "C98",
   "status": "proved",
   "theorems": [
    "C98_body_updates",
    "C98_world_updates",
    "C98_product",
    "C98_body_vectors",
    "C98_world_vectors"
   ],
   "note": ""
  },
  {
   "property": "C99",
   "status": "proved",
   "theorems": [
    "C99_depth",
    "C99_order",
    "C99_screen",
    "C99_close_points_refuted"
   ],
   "note": ""
  },
  {
   "property": "C100",
   "status": "proved",
   "theorems": [
    "C100_inverse",
    "C100_cancel",
    "C100_conjugate",
    "C100_undo"
   ],
   "note": ""
  },
  {
   "property": "C101",
   "status": "proved",
   "theorems": [
    "C101_hash",
    "C101_std",
    "C101_value_ptr"
   ],
   "note": ""
  },
  {
   "property": "C102",
   "status": "proved",
   "theorems": [
    "C102_place",
    "C102_depth",
    "C102_order"
   ],
   "note": ""
  },
  {
   "property": "C103",
   "status": "proved",
   "theorems": [
    "C103_float2",
    "C103_copy2",
    "C103_int2",
    "C103_float3",
    "C103_copy3",
    "C103_int3",
    "C103_float4",
    "C103_copy4",
    "C103_int4",
    "C103_int_assignment_refuted",
    "C103_shuffle",
    "C103_names_vec",
    "C103_names_ivec",
    "C103_format"
   ],
   "note": ""
  },
  {
   "property": "C104",
   "status": "proved",
   "theorems": [
    "C104_lerp",
    "C104_nlerp",
    "C104_near",
    "C104_follow",
    "C104_opposite_refuted"
   ],
   "note": ""
  },
  {
   "property": "C105",
   "status": "proved",
   "theorems": [
    "C105_smoothing",
    "C105_damping",
    "C105_rest_refuted"
   ],
   "note": ""
  },
  {
   "property": "C106",
   "status": "proved",
   "theorems": [
    "C106_pose",
    "C106_cast",
    "C106_rigid"
   ],
   "note": ""
  },
  {
   "property": "C107",
   "status": "proved",
   "theorems": [
    "C107_carry",
    "C107_linear",
    "C107_rigid"
   ],
   "note": ""
  },
  {
   "property": "C108",
   "status": "proved",
   "theorems": [
    "C108_depth",
    "C108_order"
   ],
   "note": ""
  },
  {
   "property": "C109",
   "status": "proved",
   "theorems": [
    "C109_diffuse",
    "C109_turned"
   ],
   "note": ""
  }
 ]
}