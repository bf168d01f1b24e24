(** * The functions of /repo/src, by name, class and parameter types

    [T__...] is a constructor or member function of class T ([T__default] the
    default constructor), [op_...] an operator, anything else a free function.
    hash.cpp, type_ptr.cpp and the accessor classes are modelled in ModelHash.v,
    ModelAccess.v and ModelSwizzle.v only. *)
Inductive fn : Type :=
(* src/vec2.cpp *)
| vec2__default | vec2__no_init_t | vec2__float | vec2__int | vec2__float_float | make_vec2_float_ptr | op_add_vec2_vec2 | op_add_vec2_float |
op_add_float_vec2 | op_sub_vec2_vec2 | op_sub_vec2_float | op_sub_float_vec2 | op_mul_vec2_vec2 | op_mul_vec2_float | op_mul_float_vec2 |
op_div_vec2_vec2 | op_div_vec2_float | op_div_float_vec2 | vec2__op_add_assign_vec2 | vec2__op_add_assign_float | vec2__op_sub_assign_vec2 |
vec2__op_sub_assign_float | vec2__op_mul_assign_vec2 | vec2__op_mul_assign_float | vec2__op_div_assign_vec2 | vec2__op_div_assign_float | op_add_vec2
| op_sub_vec2 | vec2__preinc | vec2__postinc | vec2__predec | vec2__postdec | op_eq_vec2_vec2 | op_ne_vec2_vec2 | vec2__index | vec2__index_const
(* src/vec3.cpp *)
| vec3__default | vec3__no_init_t | vec3__float | vec3__int | vec3__float_float_float | vec3__vec2_float | vec3__float_vec2 | make_vec3_float_ptr |
op_add_vec3_vec3 | op_add_vec3_float | op_add_float_vec3 | op_sub_vec3_vec3 | op_sub_vec3_float | op_sub_float_vec3 | op_mul_vec3_vec3 |
op_mul_vec3_float | op_mul_float_vec3 | op_div_vec3_vec3 | op_div_vec3_float | op_div_float_vec3 | vec3__op_add_assign_vec3 |
vec3__op_add_assign_float | vec3__op_sub_assign_vec3 | vec3__op_sub_assign_float | vec3__op_mul_assign_vec3 | vec3__op_mul_assign_float |
vec3__op_div_assign_vec3 | vec3__op_div_assign_float | op_sub_vec3 | op_add_vec3 | vec3__preinc | vec3__postinc | vec3__predec | vec3__postdec |
op_eq_vec3_vec3 | op_ne_vec3_vec3 | vec3__index | vec3__index_const
(* src/vec4.cpp *)
| vec4__default | vec4__no_init_t | vec4__float | vec4__int | vec4__float_float_float_float | vec4__vec3_float | vec4__float_vec3 | vec4__vec2_vec2 |
vec4__vec2_float_float | vec4__float_vec2_float | vec4__float_float_vec2 | make_vec4_float_ptr | op_add_vec4_vec4 | op_add_vec4_float |
op_add_float_vec4 | op_sub_vec4_vec4 | op_sub_vec4_float | op_sub_float_vec4 | op_mul_vec4_vec4 | op_mul_vec4_float | op_mul_float_vec4 |
op_div_vec4_vec4 | op_div_vec4_float | op_div_float_vec4 | vec4__op_add_assign_vec4 | vec4__op_add_assign_float | vec4__op_sub_assign_vec4 |
vec4__op_sub_assign_float | vec4__op_mul_assign_vec4 | vec4__op_mul_assign_float | vec4__op_div_assign_vec4 | vec4__op_div_assign_float | op_sub_vec4
| op_add_vec4 | vec4__preinc | vec4__postinc | vec4__predec | vec4__postdec | op_eq_vec4_vec4 | op_ne_vec4_vec4 | vec4__index | vec4__index_const
(* src/ivec2.cpp *)
| ivec2__default | ivec2__no_init_t | ivec2__int | ivec2__int_int | op_add_ivec2 | op_sub_ivec2 | make_ivec2_int_ptr | op_add_ivec2_ivec2 |
op_add_ivec2_int | op_add_int_ivec2 | op_sub_ivec2_ivec2 | op_sub_ivec2_int | op_sub_int_ivec2 | op_mul_ivec2_ivec2 | op_mul_ivec2_int |
op_mul_int_ivec2 | op_div_ivec2_ivec2 | op_div_ivec2_int | op_div_int_ivec2 | op_rem_ivec2_ivec2 | op_rem_ivec2_int | op_rem_int_ivec2 |
op_or_ivec2_ivec2 | op_or_ivec2_int | op_or_int_ivec2 | op_and_ivec2_ivec2 | op_and_ivec2_int | op_and_int_ivec2 | op_xor_ivec2_ivec2 |
op_xor_ivec2_int | op_xor_int_ivec2 | op_shr_ivec2_ivec2 | op_shr_ivec2_int | op_shr_int_ivec2 | op_shl_ivec2_ivec2 | op_shl_ivec2_int |
op_shl_int_ivec2 | ivec2__op_add_assign_ivec2 | ivec2__op_add_assign_int | ivec2__op_sub_assign_ivec2 | ivec2__op_sub_assign_int |
ivec2__op_mul_assign_ivec2 | ivec2__op_mul_assign_int | ivec2__op_div_assign_ivec2 | ivec2__op_div_assign_int | ivec2__op_rem_assign_ivec2 |
ivec2__op_rem_assign_int | ivec2__op_or_assign_ivec2 | ivec2__op_or_assign_int | ivec2__op_and_assign_ivec2 | ivec2__op_and_assign_int |
ivec2__op_xor_assign_ivec2 | ivec2__op_xor_assign_int | ivec2__op_shr_assign_ivec2 | ivec2__op_shr_assign_int | ivec2__op_shl_assign_ivec2 |
ivec2__op_shl_assign_int | op_eq_ivec2_ivec2 | op_ne_ivec2_ivec2 | op_lt_ivec2_ivec2 | op_le_ivec2_ivec2 | op_gt_ivec2_ivec2 | op_ge_ivec2_ivec2 |
ivec2__index | ivec2__index_const | ivec2__to_bvec2 | ivec2__preinc | ivec2__postinc | ivec2__predec | ivec2__postdec
(* src/ivec3.cpp *)
| ivec3__default | ivec3__no_init_t | ivec3__int | ivec3__int_int_int | ivec3__ivec2_int | ivec3__int_ivec2 | make_ivec3_int_ptr | op_add_ivec3_ivec3
| op_add_ivec3_int | op_add_int_ivec3 | op_sub_ivec3_ivec3 | op_sub_ivec3_int | op_sub_int_ivec3 | op_mul_ivec3_ivec3 | op_mul_ivec3_int |
op_mul_int_ivec3 | op_div_ivec3_ivec3 | op_div_ivec3_int | op_div_int_ivec3 | op_rem_ivec3_ivec3 | op_rem_ivec3_int | op_rem_int_ivec3 |
op_or_ivec3_ivec3 | op_or_ivec3_int | op_or_int_ivec3 | op_and_ivec3_ivec3 | op_and_ivec3_int | op_and_int_ivec3 | op_xor_ivec3_ivec3 |
op_xor_ivec3_int | op_xor_int_ivec3 | op_shr_ivec3_ivec3 | op_shr_ivec3_int | op_shr_int_ivec3 | op_shl_ivec3_ivec3 | op_shl_ivec3_int |
op_shl_int_ivec3 | ivec3__op_add_assign_ivec3 | ivec3__op_add_assign_int | ivec3__op_sub_assign_ivec3 | ivec3__op_sub_assign_int |
ivec3__op_mul_assign_ivec3 | ivec3__op_mul_assign_int | ivec3__op_div_assign_ivec3 | ivec3__op_div_assign_int | ivec3__op_rem_assign_ivec3 |
ivec3__op_rem_assign_int | ivec3__op_or_assign_ivec3 | ivec3__op_or_assign_int | ivec3__op_and_assign_ivec3 | ivec3__op_and_assign_int |
ivec3__op_xor_assign_ivec3 | ivec3__op_xor_assign_int | ivec3__op_shr_assign_ivec3 | ivec3__op_shr_assign_int | ivec3__op_shl_assign_ivec3 |
ivec3__op_shl_assign_int | op_sub_ivec3 | op_add_ivec3 | op_eq_ivec3_ivec3 | op_ne_ivec3_ivec3 | ivec3__index | ivec3__index_const | ivec3__preinc |
ivec3__postinc | ivec3__predec | ivec3__postdec | ivec3__to_bvec3 | op_lt_ivec3_ivec3 | op_le_ivec3_ivec3 | op_gt_ivec3_ivec3 | op_ge_ivec3_ivec3
(* src/ivec4.cpp *)
| ivec4__default | ivec4__no_init_t | ivec4__int | ivec4__int_int_int_int | ivec4__ivec3_int | ivec4__int_ivec3 | ivec4__ivec2_ivec2 |
ivec4__ivec2_int_int | ivec4__int_ivec2_int | ivec4__int_int_ivec2 | make_ivec4_int_ptr | op_add_ivec4_ivec4 | op_add_ivec4_int | op_add_int_ivec4 |
op_sub_ivec4_ivec4 | op_sub_ivec4_int | op_sub_int_ivec4 | op_mul_ivec4_ivec4 | op_mul_ivec4_int | op_mul_int_ivec4 | op_div_ivec4_ivec4 |
op_div_ivec4_int | op_div_int_ivec4 | ivec4__op_add_assign_ivec4 | ivec4__op_add_assign_int | ivec4__op_sub_assign_ivec4 | ivec4__op_sub_assign_int |
ivec4__op_mul_assign_ivec4 | ivec4__op_mul_assign_int | ivec4__op_div_assign_ivec4 | ivec4__op_div_assign_int | op_sub_ivec4 | op_add_ivec4 |
ivec4__preinc | ivec4__postinc | ivec4__predec | ivec4__postdec | op_eq_ivec4_ivec4 | op_ne_ivec4_ivec4 | op_lt_ivec4_ivec4 | op_le_ivec4_ivec4 |
op_gt_ivec4_ivec4 | op_ge_ivec4_ivec4 | ivec4__index | ivec4__index_const | ivec4__to_bvec4
(* src/bvec2.cpp *)
| bvec2__default | bvec2__bool | bvec2__bool_bool | op_land_bvec2_bvec2 | op_land_bvec2_bool | op_land_bool_bvec2 | op_lor_bvec2_bvec2 |
op_lor_bvec2_bool | op_lor_bool_bvec2 | op_xor_bvec2_bvec2 | op_xor_bvec2_bool | op_xor_bool_bvec2 | op_not_bvec2 | bvec2__op_and_assign_bool |
bvec2__op_or_assign_bool | bvec2__op_xor_assign_bool | bvec2__op_and_assign_bvec2 | bvec2__op_or_assign_bvec2 | bvec2__op_xor_assign_bvec2 |
op_eq_bvec2_bvec2 | op_ne_bvec2_bvec2 | bvec2__index | bvec2__index_const | make_bvec2_bool_ptr
(* src/bvec3.cpp *)
| bvec3__default | bvec3__bool | bvec3__bool_bool_bool | bvec3__bvec2_bool | bvec3__bool_bvec2 | op_land_bvec3_bvec3 | op_land_bvec3_bool |
op_land_bool_bvec3 | op_lor_bvec3_bvec3 | op_lor_bvec3_bool | op_lor_bool_bvec3 | op_xor_bvec3_bvec3 | op_xor_bvec3_bool | op_xor_bool_bvec3 |
op_not_bvec3 | bvec3__op_and_assign_bool | bvec3__op_or_assign_bool | bvec3__op_xor_assign_bool | bvec3__op_and_assign_bvec3 |
bvec3__op_or_assign_bvec3 | bvec3__op_xor_assign_bvec3 | op_eq_bvec3_bvec3 | op_ne_bvec3_bvec3 | bvec3__index | bvec3__index_const |
make_bvec3_bool_ptr
(* src/bvec4.cpp *)
| bvec4__default | bvec4__bool | bvec4__bool_bool_bool_bool | bvec4__bvec3_bool | bvec4__bool_bvec3 | bvec4__bvec2_bvec2 | bvec4__bvec2_bool_bool |
bvec4__bool_bvec2_bool | bvec4__bool_bool_bvec2 | op_land_bvec4_bvec4 | op_land_bvec4_bool | op_land_bool_bvec4 | op_lor_bvec4_bvec4 |
op_lor_bvec4_bool | op_lor_bool_bvec4 | op_xor_bvec4_bvec4 | op_xor_bvec4_bool | op_xor_bool_bvec4 | op_not_bvec4 | op_eq_bvec4_bvec4 |
op_ne_bvec4_bvec4 | bvec4__op_and_assign_bool | bvec4__op_or_assign_bool | bvec4__op_xor_assign_bool | bvec4__op_and_assign_bvec4 |
bvec4__op_or_assign_bvec4 | bvec4__op_xor_assign_bvec4 | bvec4__index | bvec4__index_const | make_bvec4_bool_ptr
(* src/mat2.cpp *)
| mat2__default | mat2__no_init_t | mat2__float | mat2__float_float_float_float | mat2__vec2_vec2 | mat2__index | mat2__index_const | op_add_mat2_mat2
| op_sub_mat2_mat2 | op_sub_mat2 | op_add_mat2 | op_mul_mat2_mat2 | op_div_mat2_mat2 | op_mul_mat2_float | op_div_mat2_float | op_mul_float_mat2 |
op_div_float_mat2 | op_mul_mat2_vec2 | op_mul_vec2_mat2 | op_div_mat2_vec2 | op_div_vec2_mat2 | mat2__op_add_assign_mat2 | mat2__op_sub_assign_mat2 |
mat2__op_mul_assign_mat2 | mat2__op_div_assign_mat2 | op_eq_mat2_mat2 | op_ne_mat2_mat2 | make_mat2_float_ptr
(* src/mat3.cpp *)
| mat3__default | mat3__no_init_t | mat3__float | mat3__mat2 | mat3__to_mat2 | mat3__vec3_vec3_vec3 |
mat3__float_float_float_float_float_float_float_float_float | op_add_mat3_mat3 | op_sub_mat3_mat3 | op_sub_mat3 | op_add_mat3 | op_mul_mat3_mat3 |
op_div_mat3_mat3 | op_mul_mat3_float | op_div_mat3_float | op_mul_float_mat3 | op_div_float_mat3 | mat3__index | mat3__index_const |
mat3__op_add_assign_mat3 | mat3__op_sub_assign_mat3 | mat3__op_mul_assign_mat3 | mat3__op_div_assign_mat3 | op_mul_mat3_vec3 | op_mul_vec3_mat3 |
op_div_mat3_vec3 | op_div_vec3_mat3 | op_eq_mat3_mat3 | op_ne_mat3_mat3 | make_mat3_float_ptr
(* src/mat4.cpp *)
| mat4__default | mat4__no_init_t | mat4__float | mat4__vec4_vec4_vec4_vec4 |
mat4__float_float_float_float_float_float_float_float_float_float_float_float_float_float_float_float | mat4__mat3 | mat4__to_mat3 | op_add_mat4_mat4
| op_sub_mat4_mat4 | op_sub_mat4 | op_add_mat4 | op_mul_mat4_mat4 | op_div_mat4_mat4 | op_mul_mat4_float | op_div_mat4_float | op_mul_float_mat4 |
op_div_float_mat4 | mat4__op_add_assign_mat4 | mat4__op_sub_assign_mat4 | mat4__op_mul_assign_mat4 | mat4__op_div_assign_mat4 | mat4__index |
mat4__index_const | op_mul_mat4_vec4 | op_mul_vec4_mat4 | op_div_mat4_vec4 | op_div_vec4_mat4 | op_eq_mat4_mat4 | op_ne_mat4_mat4 |
make_mat4_float_ptr
(* src/quat.cpp *)
| quat__default | quat__no_init_t | quat__float_float_float_float | quat__float_vec3 | quat__vec3_float | quat__wxyz_float_float_float_float |
quat__vec3_vec3 | quat__vec3 | make_quat_float_ptr | quat__index | quat__index_const | quat__op_add_assign_quat | quat__op_sub_assign_quat |
quat__op_mul_assign_quat | quat__op_mul_assign_float | quat__op_div_assign_float | op_add_quat_quat | op_sub_quat_quat | op_add_quat | op_sub_quat |
op_mul_quat_quat | op_mul_quat_float | op_mul_float_quat | op_div_float_quat | op_div_quat_float | op_mul_quat_vec3 | op_mul_vec3_quat |
op_eq_quat_quat | op_ne_quat_quat
(* src/common.cpp *)
| abs_float | abs_vec2 | abs_vec3 | abs_vec4 | abs_int | abs_ivec2 | abs_ivec3 | abs_ivec4 | ceil_float | ceil_vec2 | ceil_vec3 | ceil_vec4 |
clamp_float_float_float | clamp_vec2_vec2_vec2 | clamp_vec3_vec3_vec3 | clamp_vec4_vec4_vec4 | clamp_int_int_int | clamp_ivec2_ivec2_ivec2 |
clamp_ivec3_ivec3_ivec3 | clamp_ivec4_ivec4_ivec4 | floor_float | floor_vec2 | floor_vec3 | floor_vec4 | fma_float_float_float | fma_vec2_vec2_vec2 |
fma_vec3_vec3_vec3 | fma_vec4_vec4_vec4 | fract_float | fract_vec2 | fract_vec3 | fract_vec4 | max_float_float | max_vec2_vec2 | max_vec3_vec3 |
max_vec4_vec4 | max_int_int | max_ivec2_ivec2 | max_ivec3_ivec3 | max_ivec4_ivec4 | min_float_float | min_vec2_vec2 | min_vec3_vec3 | min_vec4_vec4 |
min_int_int | min_ivec2_ivec2 | min_ivec3_ivec3 | min_ivec4_ivec4 | mod_float_float | mod_vec2_vec2 | mod_vec3_vec3 | mod_vec4_vec4 | mod_vec2_float |
mod_vec3_float | mod_vec4_float | round_float | round_vec2 | round_vec3 | round_vec4 | roundEven_float | roundEven_vec2 | roundEven_vec3 |
roundEven_vec4 | sign_float | sign_vec2 | sign_vec3 | sign_vec4 | sign_int | sign_ivec2 | sign_ivec3 | sign_ivec4 | signNotZero_float |
signNotZero_vec2 | signNotZero_vec3 | signNotZero_vec4 | signNotZero_int | signNotZero_ivec2 | signNotZero_ivec3 | signNotZero_ivec4 | trunc_float |
trunc_vec2 | trunc_vec3 | trunc_vec4 | smoothstep_float_float_float | smoothstep_vec2_vec2_vec2 | smoothstep_vec3_vec3_vec3 |
smoothstep_vec4_vec4_vec4 | step_float_float | step_vec2_vec2 | step_vec3_vec3 | step_vec4_vec4 | mix_float_float_float | mix_vec2_vec2_vec2 |
mix_vec3_vec3_vec3 | mix_vec4_vec4_vec4 | mix_vec2_vec2_float | mix_vec3_vec3_float | mix_vec4_vec4_float | mix_float_float_bool | mix_vec2_vec2_bvec2
| mix_vec3_vec3_bvec3 | mix_vec4_vec4_bvec4 | isinf_float | isinf_vec2 | isinf_vec3 | isinf_vec4 | isinf_quat | isnan_float | isnan_vec2 | isnan_vec3
| isnan_vec4 | isnan_quat | lessThan_vec2_vec2 | lessThan_vec3_vec3 | lessThan_vec4_vec4 | lessThanEqual_vec2_vec2 | lessThanEqual_vec3_vec3 |
lessThanEqual_vec4_vec4 | greaterThan_vec2_vec2 | greaterThan_vec3_vec3 | greaterThan_vec4_vec4 | greaterThanEqual_vec2_vec2 |
greaterThanEqual_vec3_vec3 | greaterThanEqual_vec4_vec4 | equal_vec2_vec2 | equal_vec3_vec3 | equal_vec4_vec4 | equal_quat_quat | equal_bvec2_bvec2 |
equal_bvec3_bvec3 | equal_bvec4_bvec4 | notEqual_vec2_vec2 | notEqual_vec3_vec3 | notEqual_vec4_vec4 | notEqual_quat_quat | notEqual_bvec2_bvec2 |
notEqual_bvec3_bvec3 | notEqual_bvec4_bvec4 | all_bvec2 | all_bvec3 | all_bvec4 | any_bvec2 | any_bvec3 | any_bvec4
(* src/geometric.cpp *)
| dot_float_float | dot_vec2_vec2 | dot_vec3_vec3 | dot_vec4_vec4 | dot_quat_quat | cross_vec3_vec3 | normalize_vec2 | normalize_vec3 | normalize_vec4
| normalize_quat | distance_float_float | distance_vec2_vec2 | distance_vec3_vec3 | distance_vec4_vec4 | faceforward_float_float_float |
faceforward_vec2_vec2_vec2 | faceforward_vec3_vec3_vec3 | faceforward_vec4_vec4_vec4 | reflect_float_float | reflect_vec2_vec2 | reflect_vec3_vec3 |
reflect_vec4_vec4 | refract_float_float_float | refract_vec2_vec2_float | refract_vec3_vec3_float | refract_vec4_vec4_float | length_float |
length_vec2 | length_vec3 | length_vec4 | length_quat | length2_float | length2_vec2 | length2_vec3 | length2_vec4 | length2_quat |
distance2_float_float | distance2_vec2_vec2 | distance2_vec3_vec3 | distance2_vec4_vec4 | orthogonal_vec3 | orthogonal_branchless_vec3 |
encode_octahedral_vec3 | decode_octahedral_vec2
(* src/exponential.cpp *)
| sqrt_float | sqrt_vec2 | sqrt_vec3 | sqrt_vec4 | sqrt_quat | pow_float_float | pow_vec2_vec2 | pow_vec3_vec3 | pow_vec4_vec4 | pow_quat_float |
log_float | log_vec2 | log_vec3 | log_vec4 | log_quat | log2_float | log2_vec2 | log2_vec3 | log2_vec4 | log2_quat | inversesqrt_float |
inversesqrt_vec2 | inversesqrt_vec3 | inversesqrt_vec4 | inversesqrt_quat | exp_float | exp_vec2 | exp_vec3 | exp_vec4 | exp_quat | exp2_float |
exp2_vec2 | exp2_vec3 | exp2_vec4 | exp2_quat | cbrt_float | cbrt_vec2 | cbrt_vec3 | cbrt_vec4 | cbrt_quat
(* src/angle_and_trigonometry.cpp *)
| degreesf_float | radiansf_float | cos_float | cos_vec2 | cos_vec3 | cos_vec4 | sin_float | sin_vec2 | sin_vec3 | sin_vec4 | acos_float | acos_vec2 |
acos_vec3 | acos_vec4 | acosh_float | acosh_vec2 | acosh_vec3 | acosh_vec4 | asin_float | asin_vec2 | asin_vec3 | asin_vec4 | asinh_float | asinh_vec2
| asinh_vec3 | asinh_vec4 | atan_float_float | atan_vec2_vec2 | atan_vec3_vec3 | atan_vec4_vec4 | atan_float | atan_vec2 | atan_vec3 | atan_vec4 |
atanh_float | atanh_vec2 | atanh_vec3 | atanh_vec4 | cosh_float | cosh_vec2 | cosh_vec3 | cosh_vec4 | degrees_float | degrees_vec2 | degrees_vec3 |
degrees_vec4 | radians_float | radians_vec2 | radians_vec3 | radians_vec4 | sinh_float | sinh_vec2 | sinh_vec3 | sinh_vec4 | tan_float | tan_vec2 |
tan_vec3 | tan_vec4 | tanh_float | tanh_vec2 | tanh_vec3 | tanh_vec4
(* src/component_wise.cpp *)
| compAdd_vec2 | compAdd_vec3 | compAdd_vec4 | compAdd_ivec2 | compAdd_ivec3 | compAdd_ivec4 | compMul_vec2 | compMul_vec3 | compMul_vec4 |
compMul_ivec2 | compMul_ivec3 | compMul_ivec4 | compMin_vec2 | compMin_vec3 | compMin_vec4 | compMin_ivec2 | compMin_ivec3 | compMin_ivec4 |
compMax_vec2 | compMax_vec3 | compMax_vec4 | compMax_ivec2 | compMax_ivec3 | compMax_ivec4
(* src/constants.cpp *)
| epsilon | zero | one | pi | two_pi | root_pi | half_pi | three_over_two_pi | quarter_pi | one_over_pi | one_over_two_pi | two_over_pi | four_over_pi
| two_over_root_pi | one_over_root_two | root_half_pi | root_two_pi | root_ln_four | e | euler | root_two | root_three | root_five | ln_two | ln_ten |
ln_ln_two | third | two_thirds | golden_ratio
(* src/color_space.cpp *)
| convertLinearToSRGB_vec4_float | convertLinearToSRGB_vec3_float | convertLinearToSRGB_vec3 | convertLinearToSRGB_vec4 |
convertSRGBToLinear_vec3_float | convertSRGBToLinear_vec4_float | convertSRGBToLinear_vec3 | convertSRGBToLinear_vec4
(* src/matrix.cpp *)
| matrixCompMult_mat2_mat2 | matrixCompMult_mat3_mat3 | matrixCompMult_mat4_mat4 | transpose_mat2 | transpose_mat3 | transpose_mat4 | determinant_mat2
| determinant_mat3 | determinant_mat4 | inverse_mat2 | inverse_mat3 | inverse_mat4 | adjugate_mat2 | adjugate_mat3 | adjugate_mat4 |
inverseTranspose_mat2 | inverseTranspose_mat3 | inverseTranspose_mat4 | adjugateTranspose_mat2 | adjugateTranspose_mat3 | adjugateTranspose_mat4
(* src/matrix_transform.cpp *)
| translate_mat4_vec3 | rotate_mat4_float_vec3 | scale_mat4_vec3 | lookAtRH_vec3_vec3_vec3 | lookAtLH_vec3_vec3_vec3 | ortho_float_float_float_float |
orthoLH_ZO_float_float_float_float_float_float | orthoRH_ZO_float_float_float_float_float_float | orthoLH_NO_float_float_float_float_float_float |
orthoRH_NO_float_float_float_float_float_float | perspectiveRH_ZO_float_float_float_float | perspectiveRH_NO_float_float_float_float |
perspectiveLH_ZO_float_float_float_float | perspectiveLH_NO_float_float_float_float | decompose_orthogonal_mat4_vec3_quat_vec3
(* src/quaternion.cpp *)
| eulerAngles_quat | pitch_quat | yaw_quat | roll_quat | mat3_cast_quat | mat4_cast_quat | quat_cast_mat3 | quat_cast_mat4 | quatLookAtLH_vec3_vec3 |
quatLookAtRH_vec3_vec3 | conjugate_quat | inverse_quat | lerp_quat_quat_float | nlerp_quat_quat_float | slerp_quat_quat_float | axis_quat | angle_quat
| angleAxis_float_vec3 | rotate_quat_float_vec3.
