(** * Proofs: the source of each function and its model agree (part 2 of 4) *)
From Coq Require Import ZArith NArith Bool List String.
From Verif Require Import Scalar Outcome Types Int32 Cpp CppNames CppCode1 CppCode2 CppCode3 CppProgram CppModel SpecCpp CppTac.
Import ListNotations.
Lemma ag_vec2__no_init_t : agrees vec2__no_init_t.
Proof. agree c_vec2__no_init_t. Qed.
Lemma so_vec2__no_init_t : sound vec2__no_init_t.
Proof. sound c_vec2__no_init_t. Qed.
Lemma ag_make_vec2_float_ptr : agrees make_vec2_float_ptr.
Proof. start_ptr c_make_vec2_float_ptr inv_ptr_float dPF_map 2. Qed.
Lemma so_make_vec2_float_ptr : sound make_vec2_float_ptr.
Proof. start_ptr c_make_vec2_float_ptr inv_ptr_float dPF_map 2. Qed.
Lemma ag_op_sub_vec2_vec2 : agrees op_sub_vec2_vec2.
Proof. agree c_op_sub_vec2_vec2. Qed.
Lemma so_op_sub_vec2_vec2 : sound op_sub_vec2_vec2.
Proof. sound c_op_sub_vec2_vec2. Qed.
Lemma ag_op_mul_vec2_float : agrees op_mul_vec2_float.
Proof. agree c_op_mul_vec2_float. Qed.
Lemma so_op_mul_vec2_float : sound op_mul_vec2_float.
Proof. sound c_op_mul_vec2_float. Qed.
Lemma ag_op_div_float_vec2 : agrees op_div_float_vec2.
Proof. agree c_op_div_float_vec2. Qed.
Lemma so_op_div_float_vec2 : sound op_div_float_vec2.
Proof. sound c_op_div_float_vec2. Qed.
Lemma ag_vec2__op_sub_assign_float : agrees vec2__op_sub_assign_float.
Proof. agree c_vec2__op_sub_assign_float. Qed.
Lemma so_vec2__op_sub_assign_float : sound vec2__op_sub_assign_float.
Proof. sound c_vec2__op_sub_assign_float. Qed.
Lemma ag_vec2__op_div_assign_float : agrees vec2__op_div_assign_float.
Proof. agree c_vec2__op_div_assign_float. Qed.
Lemma so_vec2__op_div_assign_float : sound vec2__op_div_assign_float.
Proof. sound c_vec2__op_div_assign_float. Qed.
Lemma ag_vec2__postinc : agrees vec2__postinc.
Proof. agree c_vec2__postinc. Qed.
Lemma so_vec2__postinc : sound vec2__postinc.
Proof. sound c_vec2__postinc. Qed.
Lemma ag_op_ne_vec2_vec2 : agrees op_ne_vec2_vec2.
Proof. agree c_op_ne_vec2_vec2. Qed.
Lemma so_op_ne_vec2_vec2 : sound op_ne_vec2_vec2.
Proof. sound c_op_ne_vec2_vec2. Qed.
Lemma ag_vec3__no_init_t : agrees vec3__no_init_t.
Proof. agree c_vec3__no_init_t. Qed.
Lemma so_vec3__no_init_t : sound vec3__no_init_t.
Proof. sound c_vec3__no_init_t. Qed.
Lemma ag_vec3__vec2_float : agrees vec3__vec2_float.
Proof. agree c_vec3__vec2_float. Qed.
Lemma so_vec3__vec2_float : sound vec3__vec2_float.
Proof. sound c_vec3__vec2_float. Qed.
Lemma ag_op_add_vec3_float : agrees op_add_vec3_float.
Proof. agree c_op_add_vec3_float. Qed.
Lemma so_op_add_vec3_float : sound op_add_vec3_float.
Proof. sound c_op_add_vec3_float. Qed.
Lemma ag_op_sub_float_vec3 : agrees op_sub_float_vec3.
Proof. agree c_op_sub_float_vec3. Qed.
Lemma so_op_sub_float_vec3 : sound op_sub_float_vec3.
Proof. sound c_op_sub_float_vec3. Qed.
Lemma ag_op_div_vec3_vec3 : agrees op_div_vec3_vec3.
Proof. agree c_op_div_vec3_vec3. Qed.
Lemma so_op_div_vec3_vec3 : sound op_div_vec3_vec3.
Proof. sound c_op_div_vec3_vec3. Qed.
Lemma ag_vec3__op_add_assign_float : agrees vec3__op_add_assign_float.
Proof. agree c_vec3__op_add_assign_float. Qed.
Lemma so_vec3__op_add_assign_float : sound vec3__op_add_assign_float.
Proof. sound c_vec3__op_add_assign_float. Qed.
Lemma ag_vec3__op_mul_assign_float : agrees vec3__op_mul_assign_float.
Proof. agree c_vec3__op_mul_assign_float. Qed.
Lemma so_vec3__op_mul_assign_float : sound vec3__op_mul_assign_float.
Proof. sound c_vec3__op_mul_assign_float. Qed.
Lemma ag_op_add_vec3 : agrees op_add_vec3.
Proof. agree c_op_add_vec3. Qed.
Lemma so_op_add_vec3 : sound op_add_vec3.
Proof. sound c_op_add_vec3. Qed.
Lemma ag_vec3__postdec : agrees vec3__postdec.
Proof. agree c_vec3__postdec. Qed.
Lemma so_vec3__postdec : sound vec3__postdec.
Proof. sound c_vec3__postdec. Qed.
Lemma ag_vec3__index_const : agrees vec3__index_const.
Proof. agree_index c_vec3__index_const. Qed.
Lemma so_vec3__index_const : sound vec3__index_const.
Proof. agree_index c_vec3__index_const. Qed.
Lemma ag_vec4__int : agrees vec4__int.
Proof. agree c_vec4__int. Qed.
Lemma so_vec4__int : sound vec4__int.
Proof. sound c_vec4__int. Qed.
Lemma ag_vec4__vec2_vec2 : agrees vec4__vec2_vec2.
Proof. agree c_vec4__vec2_vec2. Qed.
Lemma so_vec4__vec2_vec2 : sound vec4__vec2_vec2.
Proof. sound c_vec4__vec2_vec2. Qed.
Lemma ag_make_vec4_float_ptr : agrees make_vec4_float_ptr.
Proof. start_ptr c_make_vec4_float_ptr inv_ptr_float dPF_map 4. Qed.
Lemma so_make_vec4_float_ptr : sound make_vec4_float_ptr.
Proof. start_ptr c_make_vec4_float_ptr inv_ptr_float dPF_map 4. Qed.
Lemma ag_op_sub_vec4_vec4 : agrees op_sub_vec4_vec4.
Proof. agree c_op_sub_vec4_vec4. Qed.
Lemma so_op_sub_vec4_vec4 : sound op_sub_vec4_vec4.
Proof. sound c_op_sub_vec4_vec4. Qed.
Lemma ag_op_mul_vec4_float : agrees op_mul_vec4_float.
Proof. agree c_op_mul_vec4_float. Qed.
Lemma so_op_mul_vec4_float : sound op_mul_vec4_float.
Proof. sound c_op_mul_vec4_float. Qed.
Lemma ag_op_div_float_vec4 : agrees op_div_float_vec4.
Proof. agree c_op_div_float_vec4. Qed.
Lemma so_op_div_float_vec4 : sound op_div_float_vec4.
Proof. sound c_op_div_float_vec4. Qed.
Lemma ag_vec4__op_sub_assign_float : agrees vec4__op_sub_assign_float.
Proof. agree c_vec4__op_sub_assign_float. Qed.
Lemma so_vec4__op_sub_assign_float : sound vec4__op_sub_assign_float.
Proof. sound c_vec4__op_sub_assign_float. Qed.
Lemma ag_vec4__op_div_assign_float : agrees vec4__op_div_assign_float.
Proof. agree c_vec4__op_div_assign_float. Qed.
Lemma so_vec4__op_div_assign_float : sound vec4__op_div_assign_float.
Proof. sound c_vec4__op_div_assign_float. Qed.
Lemma ag_vec4__postinc : agrees vec4__postinc.
Proof. agree c_vec4__postinc. Qed.
Lemma so_vec4__postinc : sound vec4__postinc.
Proof. sound c_vec4__postinc. Qed.
Lemma ag_op_ne_vec4_vec4 : agrees op_ne_vec4_vec4.
Proof. agree c_op_ne_vec4_vec4. Qed.
Lemma so_op_ne_vec4_vec4 : sound op_ne_vec4_vec4.
Proof. sound c_op_ne_vec4_vec4. Qed.
Lemma ag_ivec2__no_init_t : agrees ivec2__no_init_t.
Proof. agree c_ivec2__no_init_t. Qed.
Lemma so_ivec2__no_init_t : sound ivec2__no_init_t.
Proof. sound c_ivec2__no_init_t. Qed.
Lemma ag_op_sub_ivec2 : agrees op_sub_ivec2.
Proof. agree c_op_sub_ivec2. Qed.
Lemma so_op_sub_ivec2 : sound op_sub_ivec2.
Proof. sound c_op_sub_ivec2. Qed.
Lemma ag_op_add_int_ivec2 : agrees op_add_int_ivec2.
Proof. agree c_op_add_int_ivec2. Qed.
Lemma so_op_add_int_ivec2 : sound op_add_int_ivec2.
Proof. sound c_op_add_int_ivec2. Qed.
Lemma ag_op_mul_ivec2_ivec2 : agrees op_mul_ivec2_ivec2.
Proof. agree c_op_mul_ivec2_ivec2. Qed.
Lemma so_op_mul_ivec2_ivec2 : sound op_mul_ivec2_ivec2.
Proof. sound c_op_mul_ivec2_ivec2. Qed.
Lemma ag_op_div_ivec2_int : agrees op_div_ivec2_int.
Proof. agree c_op_div_ivec2_int. Qed.
Lemma so_op_div_ivec2_int : sound op_div_ivec2_int.
Proof. sound c_op_div_ivec2_int. Qed.
Lemma ag_op_rem_int_ivec2 : agrees op_rem_int_ivec2.
Proof. agree c_op_rem_int_ivec2. Qed.
Lemma so_op_rem_int_ivec2 : sound op_rem_int_ivec2.
Proof. sound c_op_rem_int_ivec2. Qed.
Lemma ag_op_and_ivec2_ivec2 : agrees op_and_ivec2_ivec2.
Proof. agree c_op_and_ivec2_ivec2. Qed.
Lemma so_op_and_ivec2_ivec2 : sound op_and_ivec2_ivec2.
Proof. sound c_op_and_ivec2_ivec2. Qed.
Lemma ag_op_xor_ivec2_int : agrees op_xor_ivec2_int.
Proof. agree c_op_xor_ivec2_int. Qed.
Lemma so_op_xor_ivec2_int : sound op_xor_ivec2_int.
Proof. sound c_op_xor_ivec2_int. Qed.
Lemma ag_op_shr_int_ivec2 : agrees op_shr_int_ivec2.
Proof. agree c_op_shr_int_ivec2. Qed.
Lemma so_op_shr_int_ivec2 : sound op_shr_int_ivec2.
Proof. sound c_op_shr_int_ivec2. Qed.
Lemma ag_ivec2__op_add_assign_ivec2 : agrees ivec2__op_add_assign_ivec2.
Proof. agree c_ivec2__op_add_assign_ivec2. Qed.
Lemma so_ivec2__op_add_assign_ivec2 : sound ivec2__op_add_assign_ivec2.
Proof. sound c_ivec2__op_add_assign_ivec2. Qed.
Lemma ag_ivec2__op_mul_assign_ivec2 : agrees ivec2__op_mul_assign_ivec2.
Proof. agree c_ivec2__op_mul_assign_ivec2. Qed.
Lemma so_ivec2__op_mul_assign_ivec2 : sound ivec2__op_mul_assign_ivec2.
Proof. sound c_ivec2__op_mul_assign_ivec2. Qed.
Lemma ag_ivec2__op_rem_assign_ivec2 : agrees ivec2__op_rem_assign_ivec2.
Proof. agree c_ivec2__op_rem_assign_ivec2. Qed.
Lemma so_ivec2__op_rem_assign_ivec2 : sound ivec2__op_rem_assign_ivec2.
Proof. sound c_ivec2__op_rem_assign_ivec2. Qed.
Lemma ag_ivec2__op_and_assign_ivec2 : agrees ivec2__op_and_assign_ivec2.
Proof. agree c_ivec2__op_and_assign_ivec2. Qed.
Lemma so_ivec2__op_and_assign_ivec2 : sound ivec2__op_and_assign_ivec2.
Proof. sound c_ivec2__op_and_assign_ivec2. Qed.
Lemma ag_ivec2__op_shr_assign_ivec2 : agrees ivec2__op_shr_assign_ivec2.
Proof. agree c_ivec2__op_shr_assign_ivec2. Qed.
Lemma so_ivec2__op_shr_assign_ivec2 : sound ivec2__op_shr_assign_ivec2.
Proof. sound c_ivec2__op_shr_assign_ivec2. Qed.
Lemma ag_op_eq_ivec2_ivec2 : agrees op_eq_ivec2_ivec2.
Proof. agree c_op_eq_ivec2_ivec2. Qed.
Lemma so_op_eq_ivec2_ivec2 : sound op_eq_ivec2_ivec2.
Proof. sound c_op_eq_ivec2_ivec2. Qed.
Lemma ag_op_gt_ivec2_ivec2 : agrees op_gt_ivec2_ivec2.
Proof. agree c_op_gt_ivec2_ivec2. Qed.
Lemma so_op_gt_ivec2_ivec2 : sound op_gt_ivec2_ivec2.
Proof. sound c_op_gt_ivec2_ivec2. Qed.
Lemma ag_ivec2__to_bvec2 : agrees ivec2__to_bvec2.
Proof. agree c_ivec2__to_bvec2. Qed.
Lemma so_ivec2__to_bvec2 : sound ivec2__to_bvec2.
Proof. sound c_ivec2__to_bvec2. Qed.
Lemma ag_ivec2__postdec : agrees ivec2__postdec.
Proof. agree c_ivec2__postdec. Qed.
Lemma so_ivec2__postdec : sound ivec2__postdec.
Proof. sound c_ivec2__postdec. Qed.
Lemma ag_ivec3__int_int_int : agrees ivec3__int_int_int.
Proof. agree c_ivec3__int_int_int. Qed.
Lemma so_ivec3__int_int_int : sound ivec3__int_int_int.
Proof. sound c_ivec3__int_int_int. Qed.
Lemma ag_op_add_ivec3_ivec3 : agrees op_add_ivec3_ivec3.
Proof. agree c_op_add_ivec3_ivec3. Qed.
Lemma so_op_add_ivec3_ivec3 : sound op_add_ivec3_ivec3.
Proof. sound c_op_add_ivec3_ivec3. Qed.
Lemma ag_op_sub_ivec3_int : agrees op_sub_ivec3_int.
Proof. agree c_op_sub_ivec3_int. Qed.
Lemma so_op_sub_ivec3_int : sound op_sub_ivec3_int.
Proof. sound c_op_sub_ivec3_int. Qed.
Lemma ag_op_mul_int_ivec3 : agrees op_mul_int_ivec3.
Proof. agree c_op_mul_int_ivec3. Qed.
Lemma so_op_mul_int_ivec3 : sound op_mul_int_ivec3.
Proof. sound c_op_mul_int_ivec3. Qed.
Lemma ag_op_rem_ivec3_ivec3 : agrees op_rem_ivec3_ivec3.
Proof. agree c_op_rem_ivec3_ivec3. Qed.
Lemma so_op_rem_ivec3_ivec3 : sound op_rem_ivec3_ivec3.
Proof. sound c_op_rem_ivec3_ivec3. Qed.
Lemma ag_op_or_ivec3_int : agrees op_or_ivec3_int.
Proof. agree c_op_or_ivec3_int. Qed.
Lemma so_op_or_ivec3_int : sound op_or_ivec3_int.
Proof. sound c_op_or_ivec3_int. Qed.
Lemma ag_op_and_int_ivec3 : agrees op_and_int_ivec3.
Proof. agree c_op_and_int_ivec3. Qed.
Lemma so_op_and_int_ivec3 : sound op_and_int_ivec3.
Proof. sound c_op_and_int_ivec3. Qed.
Lemma ag_op_shr_ivec3_ivec3 : agrees op_shr_ivec3_ivec3.
Proof. agree c_op_shr_ivec3_ivec3. Qed.
Lemma so_op_shr_ivec3_ivec3 : sound op_shr_ivec3_ivec3.
Proof. sound c_op_shr_ivec3_ivec3. Qed.
Lemma ag_op_shl_ivec3_int : agrees op_shl_ivec3_int.
Proof. agree c_op_shl_ivec3_int. Qed.
Lemma so_op_shl_ivec3_int : sound op_shl_ivec3_int.
Proof. sound c_op_shl_ivec3_int. Qed.
Lemma ag_ivec3__op_sub_assign_ivec3 : agrees ivec3__op_sub_assign_ivec3.
Proof. agree c_ivec3__op_sub_assign_ivec3. Qed.
Lemma so_ivec3__op_sub_assign_ivec3 : sound ivec3__op_sub_assign_ivec3.
Proof. sound c_ivec3__op_sub_assign_ivec3. Qed.
Lemma ag_ivec3__op_div_assign_ivec3 : agrees ivec3__op_div_assign_ivec3.
Proof. agree c_ivec3__op_div_assign_ivec3. Qed.
Lemma so_ivec3__op_div_assign_ivec3 : sound ivec3__op_div_assign_ivec3.
Proof. sound c_ivec3__op_div_assign_ivec3. Qed.
Lemma ag_ivec3__op_or_assign_ivec3 : agrees ivec3__op_or_assign_ivec3.
Proof. agree c_ivec3__op_or_assign_ivec3. Qed.
Lemma so_ivec3__op_or_assign_ivec3 : sound ivec3__op_or_assign_ivec3.
Proof. sound c_ivec3__op_or_assign_ivec3. Qed.
Lemma ag_ivec3__op_xor_assign_ivec3 : agrees ivec3__op_xor_assign_ivec3.
Proof. agree c_ivec3__op_xor_assign_ivec3. Qed.
Lemma so_ivec3__op_xor_assign_ivec3 : sound ivec3__op_xor_assign_ivec3.
Proof. sound c_ivec3__op_xor_assign_ivec3. Qed.
Lemma ag_ivec3__op_shl_assign_ivec3 : agrees ivec3__op_shl_assign_ivec3.
Proof. agree c_ivec3__op_shl_assign_ivec3. Qed.
Lemma so_ivec3__op_shl_assign_ivec3 : sound ivec3__op_shl_assign_ivec3.
Proof. sound c_ivec3__op_shl_assign_ivec3. Qed.
Lemma ag_op_eq_ivec3_ivec3 : agrees op_eq_ivec3_ivec3.
Proof. agree c_op_eq_ivec3_ivec3. Qed.
Lemma so_op_eq_ivec3_ivec3 : sound op_eq_ivec3_ivec3.
Proof. sound c_op_eq_ivec3_ivec3. Qed.
Lemma ag_ivec3__preinc : agrees ivec3__preinc.
Proof. agree c_ivec3__preinc. Qed.
Lemma so_ivec3__preinc : sound ivec3__preinc.
Proof. sound c_ivec3__preinc. Qed.
Lemma ag_ivec3__to_bvec3 : agrees ivec3__to_bvec3.
Proof. agree c_ivec3__to_bvec3. Qed.
Lemma so_ivec3__to_bvec3 : sound ivec3__to_bvec3.
Proof. sound c_ivec3__to_bvec3. Qed.
Lemma ag_op_ge_ivec3_ivec3 : agrees op_ge_ivec3_ivec3.
Proof. agree c_op_ge_ivec3_ivec3. Qed.
Lemma so_op_ge_ivec3_ivec3 : sound op_ge_ivec3_ivec3.
Proof. sound c_op_ge_ivec3_ivec3. Qed.
Lemma ag_ivec4__int_int_int_int : agrees ivec4__int_int_int_int.
Proof. agree c_ivec4__int_int_int_int. Qed.
Lemma so_ivec4__int_int_int_int : sound ivec4__int_int_int_int.
Proof. sound c_ivec4__int_int_int_int. Qed.
Lemma ag_ivec4__ivec2_int_int : agrees ivec4__ivec2_int_int.
Proof. agree c_ivec4__ivec2_int_int. Qed.
Lemma so_ivec4__ivec2_int_int : sound ivec4__ivec2_int_int.
Proof. sound c_ivec4__ivec2_int_int. Qed.
Lemma ag_op_add_ivec4_ivec4 : agrees op_add_ivec4_ivec4.
Proof. agree c_op_add_ivec4_ivec4. Qed.
Lemma so_op_add_ivec4_ivec4 : sound op_add_ivec4_ivec4.
Proof. sound c_op_add_ivec4_ivec4. Qed.
Lemma ag_op_sub_ivec4_int : agrees op_sub_ivec4_int.
Proof. agree c_op_sub_ivec4_int. Qed.
Lemma so_op_sub_ivec4_int : sound op_sub_ivec4_int.
Proof. sound c_op_sub_ivec4_int. Qed.
Lemma ag_op_mul_int_ivec4 : agrees op_mul_int_ivec4.
Proof. agree c_op_mul_int_ivec4. Qed.
Lemma so_op_mul_int_ivec4 : sound op_mul_int_ivec4.
Proof. sound c_op_mul_int_ivec4. Qed.
Lemma ag_ivec4__op_add_assign_ivec4 : agrees ivec4__op_add_assign_ivec4.
Proof. agree c_ivec4__op_add_assign_ivec4. Qed.
Lemma so_ivec4__op_add_assign_ivec4 : sound ivec4__op_add_assign_ivec4.
Proof. sound c_ivec4__op_add_assign_ivec4. Qed.
Lemma ag_ivec4__op_mul_assign_ivec4 : agrees ivec4__op_mul_assign_ivec4.
Proof. agree c_ivec4__op_mul_assign_ivec4. Qed.
Lemma so_ivec4__op_mul_assign_ivec4 : sound ivec4__op_mul_assign_ivec4.
Proof. sound c_ivec4__op_mul_assign_ivec4. Qed.
Lemma ag_op_sub_ivec4 : agrees op_sub_ivec4.
Proof. agree c_op_sub_ivec4. Qed.
Lemma so_op_sub_ivec4 : sound op_sub_ivec4.
Proof. sound c_op_sub_ivec4. Qed.
Lemma ag_ivec4__predec : agrees ivec4__predec.
Proof. agree c_ivec4__predec. Qed.
Lemma so_ivec4__predec : sound ivec4__predec.
Proof. sound c_ivec4__predec. Qed.
Lemma ag_op_lt_ivec4_ivec4 : agrees op_lt_ivec4_ivec4.
Proof. agree c_op_lt_ivec4_ivec4. Qed.
Lemma so_op_lt_ivec4_ivec4 : sound op_lt_ivec4_ivec4.
Proof. sound c_op_lt_ivec4_ivec4. Qed.
Lemma ag_ivec4__index : agrees ivec4__index.
Proof. agree_index c_ivec4__index. Qed.
Lemma so_ivec4__index : sound ivec4__index.
Proof. agree_index c_ivec4__index. Qed.
Lemma ag_bvec2__bool : agrees bvec2__bool.
Proof. agree c_bvec2__bool. Qed.
Lemma so_bvec2__bool : sound bvec2__bool.
Proof. sound c_bvec2__bool. Qed.
Lemma ag_op_land_bool_bvec2 : agrees op_land_bool_bvec2.
Proof. agree c_op_land_bool_bvec2. Qed.
Lemma so_op_land_bool_bvec2 : sound op_land_bool_bvec2.
Proof. sound c_op_land_bool_bvec2. Qed.
Lemma ag_op_xor_bvec2_bvec2 : agrees op_xor_bvec2_bvec2.
Proof. agree c_op_xor_bvec2_bvec2. Qed.
Lemma so_op_xor_bvec2_bvec2 : sound op_xor_bvec2_bvec2.
Proof. sound c_op_xor_bvec2_bvec2. Qed.
Lemma ag_bvec2__op_and_assign_bool : agrees bvec2__op_and_assign_bool.
Proof. agree c_bvec2__op_and_assign_bool. Qed.
Lemma so_bvec2__op_and_assign_bool : sound bvec2__op_and_assign_bool.
Proof. sound c_bvec2__op_and_assign_bool. Qed.
Lemma ag_bvec2__op_or_assign_bvec2 : agrees bvec2__op_or_assign_bvec2.
Proof. agree c_bvec2__op_or_assign_bvec2. Qed.
Lemma so_bvec2__op_or_assign_bvec2 : sound bvec2__op_or_assign_bvec2.
Proof. sound c_bvec2__op_or_assign_bvec2. Qed.
Lemma ag_bvec2__index : agrees bvec2__index.
Proof. agree_index c_bvec2__index. Qed.
Lemma so_bvec2__index : sound bvec2__index.
Proof. agree_index c_bvec2__index. Qed.
Lemma ag_bvec3__bool : agrees bvec3__bool.
Proof. agree c_bvec3__bool. Qed.
Lemma so_bvec3__bool : sound bvec3__bool.
Proof. sound c_bvec3__bool. Qed.
Lemma ag_op_land_bvec3_bvec3 : agrees op_land_bvec3_bvec3.
Proof. agree c_op_land_bvec3_bvec3. Qed.
Lemma so_op_land_bvec3_bvec3 : sound op_land_bvec3_bvec3.
Proof. sound c_op_land_bvec3_bvec3. Qed.
Lemma ag_op_lor_bvec3_bool : agrees op_lor_bvec3_bool.
Proof. agree c_op_lor_bvec3_bool. Qed.
Lemma so_op_lor_bvec3_bool : sound op_lor_bvec3_bool.
Proof. sound c_op_lor_bvec3_bool. Qed.
Lemma ag_op_xor_bool_bvec3 : agrees op_xor_bool_bvec3.
Proof. agree c_op_xor_bool_bvec3. Qed.
Lemma so_op_xor_bool_bvec3 : sound op_xor_bool_bvec3.
Proof. sound c_op_xor_bool_bvec3. Qed.
Lemma ag_bvec3__op_xor_assign_bool : agrees bvec3__op_xor_assign_bool.
Proof. agree c_bvec3__op_xor_assign_bool. Qed.
Lemma so_bvec3__op_xor_assign_bool : sound bvec3__op_xor_assign_bool.
Proof. sound c_bvec3__op_xor_assign_bool. Qed.
Lemma ag_op_eq_bvec3_bvec3 : agrees op_eq_bvec3_bvec3.
Proof. agree_bool c_op_eq_bvec3_bvec3. Qed.
Lemma so_op_eq_bvec3_bvec3 : sound op_eq_bvec3_bvec3.
Proof. sound c_op_eq_bvec3_bvec3. Qed.
Lemma ag_make_bvec3_bool_ptr : agrees make_bvec3_bool_ptr.
Proof. start_ptr c_make_bvec3_bool_ptr inv_ptr_bool dPB_map 3. Qed.
Lemma so_make_bvec3_bool_ptr : sound make_bvec3_bool_ptr.
Proof. start_ptr c_make_bvec3_bool_ptr inv_ptr_bool dPB_map 3. Qed.
Lemma ag_bvec4__bvec3_bool : agrees bvec4__bvec3_bool.
Proof. agree c_bvec4__bvec3_bool. Qed.
Lemma so_bvec4__bvec3_bool : sound bvec4__bvec3_bool.
Proof. sound c_bvec4__bvec3_bool. Qed.
Lemma ag_bvec4__bool_bvec2_bool : agrees bvec4__bool_bvec2_bool.
Proof. agree c_bvec4__bool_bvec2_bool. Qed.
Lemma so_bvec4__bool_bvec2_bool : sound bvec4__bool_bvec2_bool.
Proof. sound c_bvec4__bool_bvec2_bool. Qed.
Lemma ag_op_land_bool_bvec4 : agrees op_land_bool_bvec4.
Proof. agree c_op_land_bool_bvec4. Qed.
Lemma so_op_land_bool_bvec4 : sound op_land_bool_bvec4.
Proof. sound c_op_land_bool_bvec4. Qed.
Lemma ag_op_xor_bvec4_bvec4 : agrees op_xor_bvec4_bvec4.
Proof. agree c_op_xor_bvec4_bvec4. Qed.
Lemma so_op_xor_bvec4_bvec4 : sound op_xor_bvec4_bvec4.
Proof. sound c_op_xor_bvec4_bvec4. Qed.
Lemma ag_op_eq_bvec4_bvec4 : agrees op_eq_bvec4_bvec4.
Proof. agree_bool c_op_eq_bvec4_bvec4. Qed.
Lemma so_op_eq_bvec4_bvec4 : sound op_eq_bvec4_bvec4.
Proof. sound c_op_eq_bvec4_bvec4. Qed.
Lemma ag_bvec4__op_xor_assign_bool : agrees bvec4__op_xor_assign_bool.
Proof. agree c_bvec4__op_xor_assign_bool. Qed.
Lemma so_bvec4__op_xor_assign_bool : sound bvec4__op_xor_assign_bool.
Proof. sound c_bvec4__op_xor_assign_bool. Qed.
Lemma ag_bvec4__index : agrees bvec4__index.
Proof. agree_index c_bvec4__index. Qed.
Lemma so_bvec4__index : sound bvec4__index.
Proof. agree_index c_bvec4__index. Qed.
Lemma ag_mat2__no_init_t : agrees mat2__no_init_t.
Proof. agree c_mat2__no_init_t. Qed.
Lemma so_mat2__no_init_t : sound mat2__no_init_t.
Proof. sound c_mat2__no_init_t. Qed.
Lemma ag_mat2__index : agrees mat2__index.
Proof. agree_index c_mat2__index. Qed.
Lemma so_mat2__index : sound mat2__index.
Proof. agree_index c_mat2__index. Qed.
Lemma ag_op_sub_mat2 : agrees op_sub_mat2.
Proof. agree c_op_sub_mat2. Qed.
Lemma so_op_sub_mat2 : sound op_sub_mat2.
Proof. sound c_op_sub_mat2. Qed.
Lemma ag_op_mul_mat2_float : agrees op_mul_mat2_float.
Proof. agree c_op_mul_mat2_float. Qed.
Lemma so_op_mul_mat2_float : sound op_mul_mat2_float.
Proof. sound c_op_mul_mat2_float. Qed.
Lemma ag_op_mul_mat2_vec2 : agrees op_mul_mat2_vec2.
Proof. agree c_op_mul_mat2_vec2. Qed.
Lemma so_op_mul_mat2_vec2 : sound op_mul_mat2_vec2.
Proof. sound c_op_mul_mat2_vec2. Qed.
Lemma ag_mat2__op_add_assign_mat2 : agrees mat2__op_add_assign_mat2.
Proof. agree c_mat2__op_add_assign_mat2. Qed.
Lemma so_mat2__op_add_assign_mat2 : sound mat2__op_add_assign_mat2.
Proof. sound c_mat2__op_add_assign_mat2. Qed.
Lemma ag_op_eq_mat2_mat2 : agrees op_eq_mat2_mat2.
Proof. agree c_op_eq_mat2_mat2. Qed.
Lemma so_op_eq_mat2_mat2 : sound op_eq_mat2_mat2.
Proof. sound c_op_eq_mat2_mat2. Qed.
Lemma ag_mat3__no_init_t : agrees mat3__no_init_t.
Proof. agree c_mat3__no_init_t. Qed.
Lemma so_mat3__no_init_t : sound mat3__no_init_t.
Proof. sound c_mat3__no_init_t. Qed.
Lemma ag_mat3__vec3_vec3_vec3 : agrees mat3__vec3_vec3_vec3.
Proof. agree c_mat3__vec3_vec3_vec3. Qed.
Lemma so_mat3__vec3_vec3_vec3 : sound mat3__vec3_vec3_vec3.
Proof. sound c_mat3__vec3_vec3_vec3. Qed.
Lemma ag_op_sub_mat3 : agrees op_sub_mat3.
Proof. agree c_op_sub_mat3. Qed.
Lemma so_op_sub_mat3 : sound op_sub_mat3.
Proof. sound c_op_sub_mat3. Qed.
Lemma ag_op_mul_mat3_float : agrees op_mul_mat3_float.
Proof. agree c_op_mul_mat3_float. Qed.
Lemma so_op_mul_mat3_float : sound op_mul_mat3_float.
Proof. sound c_op_mul_mat3_float. Qed.
Lemma ag_mat3__index : agrees mat3__index.
Proof. agree_index c_mat3__index. Qed.
Lemma so_mat3__index : sound mat3__index.
Proof. agree_index c_mat3__index. Qed.
Lemma ag_mat3__op_mul_assign_mat3 : agrees mat3__op_mul_assign_mat3.
Proof. agree c_mat3__op_mul_assign_mat3. Qed.
Lemma so_mat3__op_mul_assign_mat3 : sound mat3__op_mul_assign_mat3.
Proof. sound c_mat3__op_mul_assign_mat3. Qed.
Lemma ag_op_div_mat3_vec3 : agrees op_div_mat3_vec3.
Proof. agree c_op_div_mat3_vec3. Qed.
Lemma so_op_div_mat3_vec3 : sound op_div_mat3_vec3.
Proof. sound c_op_div_mat3_vec3. Qed.
Lemma ag_make_mat3_float_ptr : agrees make_mat3_float_ptr.
Proof. start_ptr c_make_mat3_float_ptr inv_ptr_float dPF_map 9. Qed.
Lemma so_make_mat3_float_ptr : sound make_mat3_float_ptr.
Proof. start_ptr c_make_mat3_float_ptr inv_ptr_float dPF_map 9. Qed.
Lemma ag_mat4__vec4_vec4_vec4_vec4 : agrees mat4__vec4_vec4_vec4_vec4.
Proof. agree c_mat4__vec4_vec4_vec4_vec4. Qed.
Lemma so_mat4__vec4_vec4_vec4_vec4 : sound mat4__vec4_vec4_vec4_vec4.
Proof. sound c_mat4__vec4_vec4_vec4_vec4. Qed.
Lemma ag_op_add_mat4_mat4 : agrees op_add_mat4_mat4.
Proof. agree c_op_add_mat4_mat4. Qed.
Lemma so_op_add_mat4_mat4 : sound op_add_mat4_mat4.
Proof. sound c_op_add_mat4_mat4. Qed.
Lemma ag_op_mul_mat4_mat4 : agrees op_mul_mat4_mat4.
Proof. agree c_op_mul_mat4_mat4. Qed.
Lemma so_op_mul_mat4_mat4 : sound op_mul_mat4_mat4.
Proof. sound c_op_mul_mat4_mat4. Qed.
Lemma ag_op_mul_float_mat4 : agrees op_mul_float_mat4.
Proof. agree c_op_mul_float_mat4. Qed.
Lemma so_op_mul_float_mat4 : sound op_mul_float_mat4.
Proof. sound c_op_mul_float_mat4. Qed.
Lemma ag_mat4__op_mul_assign_mat4 : agrees mat4__op_mul_assign_mat4.
Proof. agree c_mat4__op_mul_assign_mat4. Qed.
Lemma so_mat4__op_mul_assign_mat4 : sound mat4__op_mul_assign_mat4.
Proof. sound c_mat4__op_mul_assign_mat4. Qed.
Lemma ag_op_mul_mat4_vec4 : agrees op_mul_mat4_vec4.
Proof. agree c_op_mul_mat4_vec4. Qed.
Lemma so_op_mul_mat4_vec4 : sound op_mul_mat4_vec4.
Proof. sound c_op_mul_mat4_vec4. Qed.
Lemma ag_op_eq_mat4_mat4 : agrees op_eq_mat4_mat4.
Proof. agree c_op_eq_mat4_mat4. Qed.
Lemma so_op_eq_mat4_mat4 : sound op_eq_mat4_mat4.
Proof. sound c_op_eq_mat4_mat4. Qed.
Lemma ag_quat__no_init_t : agrees quat__no_init_t.
Proof. agree c_quat__no_init_t. Qed.
Lemma so_quat__no_init_t : sound quat__no_init_t.
Proof. sound c_quat__no_init_t. Qed.
Lemma ag_quat__wxyz_float_float_float_float : agrees quat__wxyz_float_float_float_float.
Proof. agree c_quat__wxyz_float_float_float_float. Qed.
Lemma so_quat__wxyz_float_float_float_float : sound quat__wxyz_float_float_float_float.
Proof. sound c_quat__wxyz_float_float_float_float. Qed.
Lemma ag_quat__index : agrees quat__index.
Proof. agree_index c_quat__index. Qed.
Lemma so_quat__index : sound quat__index.
Proof. agree_index c_quat__index. Qed.
Lemma ag_quat__op_mul_assign_quat : agrees quat__op_mul_assign_quat.
Proof. agree c_quat__op_mul_assign_quat. Qed.
Lemma so_quat__op_mul_assign_quat : sound quat__op_mul_assign_quat.
Proof. sound c_quat__op_mul_assign_quat. Qed.
Lemma ag_op_sub_quat_quat : agrees op_sub_quat_quat.
Proof. agree c_op_sub_quat_quat. Qed.
Lemma so_op_sub_quat_quat : sound op_sub_quat_quat.
Proof. sound c_op_sub_quat_quat. Qed.
Lemma ag_op_mul_quat_float : agrees op_mul_quat_float.
Proof. agree c_op_mul_quat_float. Qed.
Lemma so_op_mul_quat_float : sound op_mul_quat_float.
Proof. sound c_op_mul_quat_float. Qed.
Lemma ag_op_mul_quat_vec3 : agrees op_mul_quat_vec3.
Proof. agree c_op_mul_quat_vec3. Qed.
Lemma so_op_mul_quat_vec3 : sound op_mul_quat_vec3.
Proof. sound c_op_mul_quat_vec3. Qed.
Lemma ag_abs_float : agrees abs_float.
Proof. agree c_abs_float. Qed.
Lemma so_abs_float : sound abs_float.
Proof. sound c_abs_float. Qed.
Lemma ag_abs_int : agrees abs_int.
Proof. agree c_abs_int. Qed.
Lemma so_abs_int : sound abs_int.
Proof. sound c_abs_int. Qed.
Lemma ag_ceil_float : agrees ceil_float.
Proof. agree c_ceil_float. Qed.
Lemma so_ceil_float : sound ceil_float.
Proof. sound c_ceil_float. Qed.
Lemma ag_clamp_float_float_float : agrees clamp_float_float_float.
Proof. agree c_clamp_float_float_float. Qed.
Lemma so_clamp_float_float_float : sound clamp_float_float_float.
Proof. sound c_clamp_float_float_float. Qed.
Lemma ag_clamp_int_int_int : agrees clamp_int_int_int.
Proof. agree c_clamp_int_int_int. Qed.
Lemma so_clamp_int_int_int : sound clamp_int_int_int.
Proof. sound c_clamp_int_int_int. Qed.
Lemma ag_floor_float : agrees floor_float.
Proof. agree c_floor_float. Qed.
Lemma so_floor_float : sound floor_float.
Proof. sound c_floor_float. Qed.
Lemma ag_fma_float_float_float : agrees fma_float_float_float.
Proof. agree c_fma_float_float_float. Qed.
Lemma so_fma_float_float_float : sound fma_float_float_float.
Proof. sound c_fma_float_float_float. Qed.
Lemma ag_fract_float : agrees fract_float.
Proof. agree c_fract_float. Qed.
Lemma so_fract_float : sound fract_float.
Proof. sound c_fract_float. Qed.
Lemma ag_max_float_float : agrees max_float_float.
Proof. agree c_max_float_float. Qed.
Lemma so_max_float_float : sound max_float_float.
Proof. sound c_max_float_float. Qed.
Lemma ag_max_int_int : agrees max_int_int.
Proof. agree c_max_int_int. Qed.
Lemma so_max_int_int : sound max_int_int.
Proof. sound c_max_int_int. Qed.
Lemma ag_min_float_float : agrees min_float_float.
Proof. agree c_min_float_float. Qed.
Lemma so_min_float_float : sound min_float_float.
Proof. sound c_min_float_float. Qed.
Lemma ag_min_int_int : agrees min_int_int.
Proof. agree c_min_int_int. Qed.
Lemma so_min_int_int : sound min_int_int.
Proof. sound c_min_int_int. Qed.
Lemma ag_mod_float_float : agrees mod_float_float.
Proof. agree c_mod_float_float. Qed.
Lemma so_mod_float_float : sound mod_float_float.
Proof. sound c_mod_float_float. Qed.
Lemma ag_mod_vec2_float : agrees mod_vec2_float.
Proof. agree c_mod_vec2_float. Qed.
Lemma so_mod_vec2_float : sound mod_vec2_float.
Proof. sound c_mod_vec2_float. Qed.
Lemma ag_round_vec2 : agrees round_vec2.
Proof. agree c_round_vec2. Qed.
Lemma so_round_vec2 : sound round_vec2.
Proof. sound c_round_vec2. Qed.
Lemma ag_roundEven_vec2 : agrees roundEven_vec2.
Proof. agree c_roundEven_vec2. Qed.
Lemma so_roundEven_vec2 : sound roundEven_vec2.
Proof. sound c_roundEven_vec2. Qed.
Lemma ag_sign_vec2 : agrees sign_vec2.
Proof. agree c_sign_vec2. Qed.
Lemma so_sign_vec2 : sound sign_vec2.
Proof. sound c_sign_vec2. Qed.
Lemma ag_sign_ivec2 : agrees sign_ivec2.
Proof. agree c_sign_ivec2. Qed.
Lemma so_sign_ivec2 : sound sign_ivec2.
Proof. sound c_sign_ivec2. Qed.
Lemma ag_signNotZero_vec2 : agrees signNotZero_vec2.
Proof. agree c_signNotZero_vec2. Qed.
Lemma so_signNotZero_vec2 : sound signNotZero_vec2.
Proof. sound c_signNotZero_vec2. Qed.
Lemma ag_signNotZero_ivec2 : agrees signNotZero_ivec2.
Proof. agree c_signNotZero_ivec2. Qed.
Lemma so_signNotZero_ivec2 : sound signNotZero_ivec2.
Proof. sound c_signNotZero_ivec2. Qed.
Lemma ag_trunc_vec2 : agrees trunc_vec2.
Proof. agree c_trunc_vec2. Qed.
Lemma so_trunc_vec2 : sound trunc_vec2.
Proof. sound c_trunc_vec2. Qed.
Lemma ag_smoothstep_vec2_vec2_vec2 : agrees smoothstep_vec2_vec2_vec2.
Proof. agree c_smoothstep_vec2_vec2_vec2. Qed.
Lemma so_smoothstep_vec2_vec2_vec2 : sound smoothstep_vec2_vec2_vec2.
Proof. sound c_smoothstep_vec2_vec2_vec2. Qed.
Lemma ag_step_vec2_vec2 : agrees step_vec2_vec2.
Proof. agree c_step_vec2_vec2. Qed.
Lemma so_step_vec2_vec2 : sound step_vec2_vec2.
Proof. sound c_step_vec2_vec2. Qed.
Lemma ag_mix_vec2_vec2_vec2 : agrees mix_vec2_vec2_vec2.
Proof. agree c_mix_vec2_vec2_vec2. Qed.
Lemma so_mix_vec2_vec2_vec2 : sound mix_vec2_vec2_vec2.
Proof. sound c_mix_vec2_vec2_vec2. Qed.
Lemma ag_mix_vec3_vec3_float : agrees mix_vec3_vec3_float.
Proof. agree c_mix_vec3_vec3_float. Qed.
Lemma so_mix_vec3_vec3_float : sound mix_vec3_vec3_float.
Proof. sound c_mix_vec3_vec3_float. Qed.
Lemma ag_mix_vec3_vec3_bvec3 : agrees mix_vec3_vec3_bvec3.
Proof. agree c_mix_vec3_vec3_bvec3. Qed.
Lemma so_mix_vec3_vec3_bvec3 : sound mix_vec3_vec3_bvec3.
Proof. sound c_mix_vec3_vec3_bvec3. Qed.
Lemma ag_isinf_vec3 : agrees isinf_vec3.
Proof. agree c_isinf_vec3. Qed.
Lemma so_isinf_vec3 : sound isinf_vec3.
Proof. sound c_isinf_vec3. Qed.
Lemma ag_isnan_vec2 : agrees isnan_vec2.
Proof. agree c_isnan_vec2. Qed.
Lemma so_isnan_vec2 : sound isnan_vec2.
Proof. sound c_isnan_vec2. Qed.
Lemma ag_lessThan_vec2_vec2 : agrees lessThan_vec2_vec2.
Proof. agree c_lessThan_vec2_vec2. Qed.
Lemma so_lessThan_vec2_vec2 : sound lessThan_vec2_vec2.
Proof. sound c_lessThan_vec2_vec2. Qed.
Lemma ag_lessThanEqual_vec3_vec3 : agrees lessThanEqual_vec3_vec3.
Proof. agree c_lessThanEqual_vec3_vec3. Qed.
Lemma so_lessThanEqual_vec3_vec3 : sound lessThanEqual_vec3_vec3.
Proof. sound c_lessThanEqual_vec3_vec3. Qed.
Lemma ag_greaterThan_vec4_vec4 : agrees greaterThan_vec4_vec4.
Proof. agree c_greaterThan_vec4_vec4. Qed.
Lemma so_greaterThan_vec4_vec4 : sound greaterThan_vec4_vec4.
Proof. sound c_greaterThan_vec4_vec4. Qed.
Lemma ag_equal_vec2_vec2 : agrees equal_vec2_vec2.
Proof. agree c_equal_vec2_vec2. Qed.
Lemma so_equal_vec2_vec2 : sound equal_vec2_vec2.
Proof. sound c_equal_vec2_vec2. Qed.
Lemma ag_equal_bvec2_bvec2 : agrees equal_bvec2_bvec2.
Proof. agree c_equal_bvec2_bvec2. Qed.
Lemma so_equal_bvec2_bvec2 : sound equal_bvec2_bvec2.
Proof. sound c_equal_bvec2_bvec2. Qed.
Lemma ag_notEqual_vec3_vec3 : agrees notEqual_vec3_vec3.
Proof. agree c_notEqual_vec3_vec3. Qed.
Lemma so_notEqual_vec3_vec3 : sound notEqual_vec3_vec3.
Proof. sound c_notEqual_vec3_vec3. Qed.
Lemma ag_notEqual_bvec3_bvec3 : agrees notEqual_bvec3_bvec3.
Proof. agree_bool c_notEqual_bvec3_bvec3. Qed.
Lemma so_notEqual_bvec3_bvec3 : sound notEqual_bvec3_bvec3.
Proof. sound c_notEqual_bvec3_bvec3. Qed.
Lemma ag_all_bvec4 : agrees all_bvec4.
Proof. agree c_all_bvec4. Qed.
Lemma so_all_bvec4 : sound all_bvec4.
Proof. sound c_all_bvec4. Qed.
Lemma ag_dot_float_float : agrees dot_float_float.
Proof. agree c_dot_float_float. Qed.
Lemma so_dot_float_float : sound dot_float_float.
Proof. sound c_dot_float_float. Qed.
Lemma ag_dot_quat_quat : agrees dot_quat_quat.
Proof. agree c_dot_quat_quat. Qed.
Lemma so_dot_quat_quat : sound dot_quat_quat.
Proof. sound c_dot_quat_quat. Qed.
Lemma ag_normalize_vec4 : agrees normalize_vec4.
Proof. agree c_normalize_vec4. Qed.
Lemma so_normalize_vec4 : sound normalize_vec4.
Proof. sound c_normalize_vec4. Qed.
Lemma ag_distance_vec3_vec3 : agrees distance_vec3_vec3.
Proof. agree c_distance_vec3_vec3. Qed.
Lemma so_distance_vec3_vec3 : sound distance_vec3_vec3.
Proof. sound c_distance_vec3_vec3. Qed.
Lemma ag_faceforward_vec3_vec3_vec3 : agrees faceforward_vec3_vec3_vec3.
Proof. agree c_faceforward_vec3_vec3_vec3. Qed.
Lemma so_faceforward_vec3_vec3_vec3 : sound faceforward_vec3_vec3_vec3.
Proof. sound c_faceforward_vec3_vec3_vec3. Qed.
Lemma ag_reflect_vec3_vec3 : agrees reflect_vec3_vec3.
Proof. agree c_reflect_vec3_vec3. Qed.
Lemma so_reflect_vec3_vec3 : sound reflect_vec3_vec3.
Proof. sound c_reflect_vec3_vec3. Qed.
Lemma ag_refract_vec3_vec3_float : agrees refract_vec3_vec3_float.
Proof. agree c_refract_vec3_vec3_float. Qed.
Lemma so_refract_vec3_vec3_float : sound refract_vec3_vec3_float.
Proof. sound c_refract_vec3_vec3_float. Qed.
Lemma ag_length_vec3 : agrees length_vec3.
Proof. agree c_length_vec3. Qed.
Lemma so_length_vec3 : sound length_vec3.
Proof. sound c_length_vec3. Qed.
Lemma ag_length2_vec2 : agrees length2_vec2.
Proof. agree c_length2_vec2. Qed.
Lemma so_length2_vec2 : sound length2_vec2.
Proof. sound c_length2_vec2. Qed.
Lemma ag_distance2_float_float : agrees distance2_float_float.
Proof. agree c_distance2_float_float. Qed.
Lemma so_distance2_float_float : sound distance2_float_float.
Proof. sound c_distance2_float_float. Qed.
Lemma ag_orthogonal_vec3 : agrees orthogonal_vec3.
Proof. agree c_orthogonal_vec3. Qed.
Lemma so_orthogonal_vec3 : sound orthogonal_vec3.
Proof. sound c_orthogonal_vec3. Qed.
Lemma ag_sqrt_float : agrees sqrt_float.
Proof. agree c_sqrt_float. Qed.
Lemma so_sqrt_float : sound sqrt_float.
Proof. sound c_sqrt_float. Qed.
Lemma ag_sqrt_quat : agrees sqrt_quat.
Proof. agree c_sqrt_quat. Qed.
Lemma so_sqrt_quat : sound sqrt_quat.
Proof. sound c_sqrt_quat. Qed.
Lemma ag_pow_vec4_vec4 : agrees pow_vec4_vec4.
Proof. agree c_pow_vec4_vec4. Qed.
Lemma so_pow_vec4_vec4 : sound pow_vec4_vec4.
Proof. sound c_pow_vec4_vec4. Qed.
Lemma ag_log_vec3 : agrees log_vec3.
Proof. agree c_log_vec3. Qed.
Lemma so_log_vec3 : sound log_vec3.
Proof. sound c_log_vec3. Qed.
Lemma ag_log2_vec2 : agrees log2_vec2.
Proof. agree c_log2_vec2. Qed.
Lemma so_log2_vec2 : sound log2_vec2.
Proof. sound c_log2_vec2. Qed.
Lemma ag_inversesqrt_float : agrees inversesqrt_float.
Proof. agree c_inversesqrt_float. Qed.
Lemma so_inversesqrt_float : sound inversesqrt_float.
Proof. sound c_inversesqrt_float. Qed.
Lemma ag_inversesqrt_quat : agrees inversesqrt_quat.
Proof. agree c_inversesqrt_quat. Qed.
Lemma so_inversesqrt_quat : sound inversesqrt_quat.
Proof. sound c_inversesqrt_quat. Qed.
Lemma ag_exp_vec4 : agrees exp_vec4.
Proof. agree c_exp_vec4. Qed.
Lemma so_exp_vec4 : sound exp_vec4.
Proof. sound c_exp_vec4. Qed.
Lemma ag_exp2_vec3 : agrees exp2_vec3.
Proof. agree c_exp2_vec3. Qed.
Lemma so_exp2_vec3 : sound exp2_vec3.
Proof. sound c_exp2_vec3. Qed.
Lemma ag_cbrt_vec2 : agrees cbrt_vec2.
Proof. agree c_cbrt_vec2. Qed.
Lemma so_cbrt_vec2 : sound cbrt_vec2.
Proof. sound c_cbrt_vec2. Qed.
Lemma ag_degreesf_float : agrees degreesf_float.
Proof. agree c_degreesf_float. Qed.
Lemma so_degreesf_float : sound degreesf_float.
Proof. sound c_degreesf_float. Qed.
Lemma ag_cos_vec3 : agrees cos_vec3.
Proof. agree c_cos_vec3. Qed.
Lemma so_cos_vec3 : sound cos_vec3.
Proof. sound c_cos_vec3. Qed.
Lemma ag_sin_vec3 : agrees sin_vec3.
Proof. agree c_sin_vec3. Qed.
Lemma so_sin_vec3 : sound sin_vec3.
Proof. sound c_sin_vec3. Qed.
Lemma ag_acos_vec3 : agrees acos_vec3.
Proof. agree c_acos_vec3. Qed.
Lemma so_acos_vec3 : sound acos_vec3.
Proof. sound c_acos_vec3. Qed.
Lemma ag_acosh_vec3 : agrees acosh_vec3.
Proof. agree c_acosh_vec3. Qed.
Lemma so_acosh_vec3 : sound acosh_vec3.
Proof. sound c_acosh_vec3. Qed.
Lemma ag_asin_vec3 : agrees asin_vec3.
Proof. agree c_asin_vec3. Qed.
Lemma so_asin_vec3 : sound asin_vec3.
Proof. sound c_asin_vec3. Qed.
Lemma ag_asinh_vec3 : agrees asinh_vec3.
Proof. agree c_asinh_vec3. Qed.
Lemma so_asinh_vec3 : sound asinh_vec3.
Proof. sound c_asinh_vec3. Qed.
Lemma ag_atan_vec3_vec3 : agrees atan_vec3_vec3.
Proof. agree c_atan_vec3_vec3. Qed.
Lemma so_atan_vec3_vec3 : sound atan_vec3_vec3.
Proof. sound c_atan_vec3_vec3. Qed.
Lemma ag_atan_vec3 : agrees atan_vec3.
Proof. agree c_atan_vec3. Qed.
Lemma so_atan_vec3 : sound atan_vec3.
Proof. sound c_atan_vec3. Qed.
Lemma ag_atanh_vec3 : agrees atanh_vec3.
Proof. agree c_atanh_vec3. Qed.
Lemma so_atanh_vec3 : sound atanh_vec3.
Proof. sound c_atanh_vec3. Qed.
Lemma ag_cosh_vec3 : agrees cosh_vec3.
Proof. agree c_cosh_vec3. Qed.
Lemma so_cosh_vec3 : sound cosh_vec3.
Proof. sound c_cosh_vec3. Qed.
Lemma ag_degrees_vec3 : agrees degrees_vec3.
Proof. agree c_degrees_vec3. Qed.
Lemma so_degrees_vec3 : sound degrees_vec3.
Proof. sound c_degrees_vec3. Qed.
Lemma ag_radians_vec3 : agrees radians_vec3.
Proof. agree c_radians_vec3. Qed.
Lemma so_radians_vec3 : sound radians_vec3.
Proof. sound c_radians_vec3. Qed.
Lemma ag_sinh_vec3 : agrees sinh_vec3.
Proof. agree c_sinh_vec3. Qed.
Lemma so_sinh_vec3 : sound sinh_vec3.
Proof. sound c_sinh_vec3. Qed.
Lemma ag_tan_vec3 : agrees tan_vec3.
Proof. agree c_tan_vec3. Qed.
Lemma so_tan_vec3 : sound tan_vec3.
Proof. sound c_tan_vec3. Qed.
Lemma ag_tanh_vec3 : agrees tanh_vec3.
Proof. agree c_tanh_vec3. Qed.
Lemma so_tanh_vec3 : sound tanh_vec3.
Proof. sound c_tanh_vec3. Qed.
Lemma ag_compAdd_vec4 : agrees compAdd_vec4.
Proof. agree c_compAdd_vec4. Qed.
Lemma so_compAdd_vec4 : sound compAdd_vec4.
Proof. sound c_compAdd_vec4. Qed.
Lemma ag_compMul_vec2 : agrees compMul_vec2.
Proof. agree c_compMul_vec2. Qed.
Lemma so_compMul_vec2 : sound compMul_vec2.
Proof. sound c_compMul_vec2. Qed.
Lemma ag_compMul_ivec3 : agrees compMul_ivec3.
Proof. agree c_compMul_ivec3. Qed.
Lemma so_compMul_ivec3 : sound compMul_ivec3.
Proof. sound c_compMul_ivec3. Qed.
Lemma ag_compMin_vec4 : agrees compMin_vec4.
Proof. agree c_compMin_vec4. Qed.
Lemma so_compMin_vec4 : sound compMin_vec4.
Proof. sound c_compMin_vec4. Qed.
Lemma ag_compMax_vec2 : agrees compMax_vec2.
Proof. agree c_compMax_vec2. Qed.
Lemma so_compMax_vec2 : sound compMax_vec2.
Proof. sound c_compMax_vec2. Qed.
Lemma ag_compMax_ivec3 : agrees compMax_ivec3.
Proof. agree c_compMax_ivec3. Qed.
Lemma so_compMax_ivec3 : sound compMax_ivec3.
Proof. sound c_compMax_ivec3. Qed.
Lemma ag_one : agrees one.
Proof. agree c_one. Qed.
Lemma so_one : sound one.
Proof. sound c_one. Qed.
Lemma ag_half_pi : agrees half_pi.
Proof. agree c_half_pi. Qed.
Lemma so_half_pi : sound half_pi.
Proof. sound c_half_pi. Qed.
Lemma ag_one_over_two_pi : agrees one_over_two_pi.
Proof. agree c_one_over_two_pi. Qed.
Lemma so_one_over_two_pi : sound one_over_two_pi.
Proof. sound c_one_over_two_pi. Qed.
Lemma ag_one_over_root_two : agrees one_over_root_two.
Proof. agree c_one_over_root_two. Qed.
Lemma so_one_over_root_two : sound one_over_root_two.
Proof. sound c_one_over_root_two. Qed.
Lemma ag_e : agrees e.
Proof. agree c_e. Qed.
Lemma so_e : sound e.
Proof. sound c_e. Qed.
Lemma ag_root_five : agrees root_five.
Proof. agree c_root_five. Qed.
Lemma so_root_five : sound root_five.
Proof. sound c_root_five. Qed.
Lemma ag_third : agrees third.
Proof. agree c_third. Qed.
Lemma so_third : sound third.
Proof. sound c_third. Qed.
Lemma ag_convertLinearToSRGB_vec3_float : agrees convertLinearToSRGB_vec3_float.
Proof. agree c_convertLinearToSRGB_vec3_float. Qed.
Lemma so_convertLinearToSRGB_vec3_float : sound convertLinearToSRGB_vec3_float.
Proof. sound c_convertLinearToSRGB_vec3_float. Qed.
Lemma ag_convertSRGBToLinear_vec4_float : agrees convertSRGBToLinear_vec4_float.
Proof. agree c_convertSRGBToLinear_vec4_float. Qed.
Lemma so_convertSRGBToLinear_vec4_float : sound convertSRGBToLinear_vec4_float.
Proof. sound c_convertSRGBToLinear_vec4_float. Qed.
Lemma ag_matrixCompMult_mat3_mat3 : agrees matrixCompMult_mat3_mat3.
Proof. agree c_matrixCompMult_mat3_mat3. Qed.
Lemma so_matrixCompMult_mat3_mat3 : sound matrixCompMult_mat3_mat3.
Proof. sound c_matrixCompMult_mat3_mat3. Qed.
Lemma ag_transpose_mat4 : agrees transpose_mat4.
Proof. agree c_transpose_mat4. Qed.
Lemma so_transpose_mat4 : sound transpose_mat4.
Proof. sound c_transpose_mat4. Qed.
Lemma ag_inverse_mat2 : agrees inverse_mat2.
Proof. agree c_inverse_mat2. Qed.
Lemma so_inverse_mat2 : sound inverse_mat2.
Proof. sound c_inverse_mat2. Qed.
Lemma ag_adjugate_mat3 : agrees adjugate_mat3.
Proof. agree c_adjugate_mat3. Qed.
Lemma so_adjugate_mat3 : sound adjugate_mat3.
Proof. sound c_adjugate_mat3. Qed.
Lemma ag_inverseTranspose_mat4 : agrees inverseTranspose_mat4.
Proof. agree c_inverseTranspose_mat4. Qed.
Lemma so_inverseTranspose_mat4 : sound inverseTranspose_mat4.
Proof. sound c_inverseTranspose_mat4. Qed.
Lemma ag_translate_mat4_vec3 : agrees translate_mat4_vec3.
Proof. agree c_translate_mat4_vec3. Qed.
Lemma so_translate_mat4_vec3 : sound translate_mat4_vec3.
Proof. sound c_translate_mat4_vec3. Qed.
Lemma ag_lookAtLH_vec3_vec3_vec3 : agrees lookAtLH_vec3_vec3_vec3.
Proof. agree c_lookAtLH_vec3_vec3_vec3. Qed.
Lemma so_lookAtLH_vec3_vec3_vec3 : sound lookAtLH_vec3_vec3_vec3.
Proof. sound c_lookAtLH_vec3_vec3_vec3. Qed.
Lemma ag_orthoLH_NO_float_float_float_float_float_float : agrees orthoLH_NO_float_float_float_float_float_float.
Proof. agree c_orthoLH_NO_float_float_float_float_float_float. Qed.
Lemma so_orthoLH_NO_float_float_float_float_float_float : sound orthoLH_NO_float_float_float_float_float_float.
Proof. sound c_orthoLH_NO_float_float_float_float_float_float. Qed.
Lemma ag_perspectiveLH_ZO_float_float_float_float : agrees perspectiveLH_ZO_float_float_float_float.
Proof. agree c_perspectiveLH_ZO_float_float_float_float. Qed.
Lemma so_perspectiveLH_ZO_float_float_float_float : sound perspectiveLH_ZO_float_float_float_float.
Proof. sound c_perspectiveLH_ZO_float_float_float_float. Qed.
Lemma ag_yaw_quat : agrees yaw_quat.
Proof. agree c_yaw_quat. Qed.
Lemma so_yaw_quat : sound yaw_quat.
Proof. sound c_yaw_quat. Qed.
Lemma ag_quat_cast_mat3 : agrees quat_cast_mat3.
Proof. agree c_quat_cast_mat3. Qed.
Lemma so_quat_cast_mat3 : sound quat_cast_mat3.
Proof. sound c_quat_cast_mat3. Qed.
Lemma ag_conjugate_quat : agrees conjugate_quat.
Proof. agree c_conjugate_quat. Qed.
Lemma so_conjugate_quat : sound conjugate_quat.
Proof. sound c_conjugate_quat. Qed.
Lemma ag_slerp_quat_quat_float : agrees slerp_quat_quat_float.
Proof. agree c_slerp_quat_quat_float. Qed.
Lemma so_slerp_quat_quat_float : sound slerp_quat_quat_float.
Proof. sound c_slerp_quat_quat_float. Qed.
Lemma ag_rotate_quat_float_vec3 : agrees rotate_quat_float_vec3.
Proof. agree c_rotate_quat_float_vec3. Qed.
Lemma so_rotate_quat_float_vec3 : sound rotate_quat_float_vec3.
Proof. sound c_rotate_quat_float_vec3. Qed.
