(** * Proofs: the source of each function and its model agree (part 4 of 4) *)
From Coq Require Import ZArith NArith Bool List String.
From Verif Require Import Scalar Outcome Types Int32 Cpp CppNames CppCode1 CppCode2 CppCode3 CppProgram CppModel SpecCpp CppTac.
Import ListNotations.
Lemma ag_vec2__int : agrees vec2__int.
Proof. agree c_vec2__int. Qed.
Lemma so_vec2__int : sound vec2__int.
Proof. sound c_vec2__int. Qed.
Lemma ag_op_add_vec2_float : agrees op_add_vec2_float.
Proof. agree c_op_add_vec2_float. Qed.
Lemma so_op_add_vec2_float : sound op_add_vec2_float.
Proof. sound c_op_add_vec2_float. Qed.
Lemma ag_op_sub_float_vec2 : agrees op_sub_float_vec2.
Proof. agree c_op_sub_float_vec2. Qed.
Lemma so_op_sub_float_vec2 : sound op_sub_float_vec2.
Proof. sound c_op_sub_float_vec2. Qed.
Lemma ag_op_div_vec2_vec2 : agrees op_div_vec2_vec2.
Proof. agree c_op_div_vec2_vec2. Qed.
Lemma so_op_div_vec2_vec2 : sound op_div_vec2_vec2.
Proof. sound c_op_div_vec2_vec2. Qed.
Lemma ag_vec2__op_add_assign_float : agrees vec2__op_add_assign_float.
Proof. agree c_vec2__op_add_assign_float. Qed.
Lemma so_vec2__op_add_assign_float : sound vec2__op_add_assign_float.
Proof. sound c_vec2__op_add_assign_float. Qed.
Lemma ag_vec2__op_mul_assign_float : agrees vec2__op_mul_assign_float.
Proof. agree c_vec2__op_mul_assign_float. Qed.
Lemma so_vec2__op_mul_assign_float : sound vec2__op_mul_assign_float.
Proof. sound c_vec2__op_mul_assign_float. Qed.
Lemma ag_op_sub_vec2 : agrees op_sub_vec2.
Proof. agree c_op_sub_vec2. Qed.
Lemma so_op_sub_vec2 : sound op_sub_vec2.
Proof. sound c_op_sub_vec2. Qed.
Lemma ag_vec2__postdec : agrees vec2__postdec.
Proof. agree c_vec2__postdec. Qed.
Lemma so_vec2__postdec : sound vec2__postdec.
Proof. sound c_vec2__postdec. Qed.
Lemma ag_vec2__index_const : agrees vec2__index_const.
Proof. agree_index c_vec2__index_const. Qed.
Lemma so_vec2__index_const : sound vec2__index_const.
Proof. agree_index c_vec2__index_const. Qed.
Lemma ag_vec3__int : agrees vec3__int.
Proof. agree c_vec3__int. Qed.
Lemma so_vec3__int : sound vec3__int.
Proof. sound c_vec3__int. Qed.
Lemma ag_make_vec3_float_ptr : agrees make_vec3_float_ptr.
Proof. start_ptr c_make_vec3_float_ptr inv_ptr_float dPF_map 3. Qed.
Lemma so_make_vec3_float_ptr : sound make_vec3_float_ptr.
Proof. start_ptr c_make_vec3_float_ptr inv_ptr_float dPF_map 3. Qed.
Lemma ag_op_sub_vec3_vec3 : agrees op_sub_vec3_vec3.
Proof. agree c_op_sub_vec3_vec3. Qed.
Lemma so_op_sub_vec3_vec3 : sound op_sub_vec3_vec3.
Proof. sound c_op_sub_vec3_vec3. Qed.
Lemma ag_op_mul_vec3_float : agrees op_mul_vec3_float.
Proof. agree c_op_mul_vec3_float. Qed.
Lemma so_op_mul_vec3_float : sound op_mul_vec3_float.
Proof. sound c_op_mul_vec3_float. Qed.
Lemma ag_op_div_float_vec3 : agrees op_div_float_vec3.
Proof. agree c_op_div_float_vec3. Qed.
Lemma so_op_div_float_vec3 : sound op_div_float_vec3.
Proof. sound c_op_div_float_vec3. Qed.
Lemma ag_vec3__op_sub_assign_float : agrees vec3__op_sub_assign_float.
Proof. agree c_vec3__op_sub_assign_float. Qed.
Lemma so_vec3__op_sub_assign_float : sound vec3__op_sub_assign_float.
Proof. sound c_vec3__op_sub_assign_float. Qed.
Lemma ag_vec3__op_div_assign_float : agrees vec3__op_div_assign_float.
Proof. agree c_vec3__op_div_assign_float. Qed.
Lemma so_vec3__op_div_assign_float : sound vec3__op_div_assign_float.
Proof. sound c_vec3__op_div_assign_float. Qed.
Lemma ag_vec3__postinc : agrees vec3__postinc.
Proof. agree c_vec3__postinc. Qed.
Lemma so_vec3__postinc : sound vec3__postinc.
Proof. sound c_vec3__postinc. Qed.
Lemma ag_op_ne_vec3_vec3 : agrees op_ne_vec3_vec3.
Proof. agree c_op_ne_vec3_vec3. Qed.
Lemma so_op_ne_vec3_vec3 : sound op_ne_vec3_vec3.
Proof. sound c_op_ne_vec3_vec3. Qed.
Lemma ag_vec4__no_init_t : agrees vec4__no_init_t.
Proof. agree c_vec4__no_init_t. Qed.
Lemma so_vec4__no_init_t : sound vec4__no_init_t.
Proof. sound c_vec4__no_init_t. Qed.
Lemma ag_vec4__vec3_float : agrees vec4__vec3_float.
Proof. agree c_vec4__vec3_float. Qed.
Lemma so_vec4__vec3_float : sound vec4__vec3_float.
Proof. sound c_vec4__vec3_float. Qed.
Lemma ag_vec4__float_vec2_float : agrees vec4__float_vec2_float.
Proof. agree c_vec4__float_vec2_float. Qed.
Lemma so_vec4__float_vec2_float : sound vec4__float_vec2_float.
Proof. sound c_vec4__float_vec2_float. Qed.
Lemma ag_op_add_vec4_float : agrees op_add_vec4_float.
Proof. agree c_op_add_vec4_float. Qed.
Lemma so_op_add_vec4_float : sound op_add_vec4_float.
Proof. sound c_op_add_vec4_float. Qed.
Lemma ag_op_sub_float_vec4 : agrees op_sub_float_vec4.
Proof. agree c_op_sub_float_vec4. Qed.
Lemma so_op_sub_float_vec4 : sound op_sub_float_vec4.
Proof. sound c_op_sub_float_vec4. Qed.
Lemma ag_op_div_vec4_vec4 : agrees op_div_vec4_vec4.
Proof. agree c_op_div_vec4_vec4. Qed.
Lemma so_op_div_vec4_vec4 : sound op_div_vec4_vec4.
Proof. sound c_op_div_vec4_vec4. Qed.
Lemma ag_vec4__op_add_assign_float : agrees vec4__op_add_assign_float.
Proof. agree c_vec4__op_add_assign_float. Qed.
Lemma so_vec4__op_add_assign_float : sound vec4__op_add_assign_float.
Proof. sound c_vec4__op_add_assign_float. Qed.
Lemma ag_vec4__op_mul_assign_float : agrees vec4__op_mul_assign_float.
Proof. agree c_vec4__op_mul_assign_float. Qed.
Lemma so_vec4__op_mul_assign_float : sound vec4__op_mul_assign_float.
Proof. sound c_vec4__op_mul_assign_float. Qed.
Lemma ag_op_add_vec4 : agrees op_add_vec4.
Proof. agree c_op_add_vec4. Qed.
Lemma so_op_add_vec4 : sound op_add_vec4.
Proof. sound c_op_add_vec4. Qed.
Lemma ag_vec4__postdec : agrees vec4__postdec.
Proof. agree c_vec4__postdec. Qed.
Lemma so_vec4__postdec : sound vec4__postdec.
Proof. sound c_vec4__postdec. Qed.
Lemma ag_vec4__index_const : agrees vec4__index_const.
Proof. agree_index c_vec4__index_const. Qed.
Lemma so_vec4__index_const : sound vec4__index_const.
Proof. agree_index c_vec4__index_const. Qed.
Lemma ag_ivec2__int_int : agrees ivec2__int_int.
Proof. agree c_ivec2__int_int. Qed.
Lemma so_ivec2__int_int : sound ivec2__int_int.
Proof. sound c_ivec2__int_int. Qed.
Lemma ag_op_add_ivec2_ivec2 : agrees op_add_ivec2_ivec2.
Proof. agree c_op_add_ivec2_ivec2. Qed.
Lemma so_op_add_ivec2_ivec2 : sound op_add_ivec2_ivec2.
Proof. sound c_op_add_ivec2_ivec2. Qed.
Lemma ag_op_sub_ivec2_int : agrees op_sub_ivec2_int.
Proof. agree c_op_sub_ivec2_int. Qed.
Lemma so_op_sub_ivec2_int : sound op_sub_ivec2_int.
Proof. sound c_op_sub_ivec2_int. Qed.
Lemma ag_op_mul_int_ivec2 : agrees op_mul_int_ivec2.
Proof. agree c_op_mul_int_ivec2. Qed.
Lemma so_op_mul_int_ivec2 : sound op_mul_int_ivec2.
Proof. sound c_op_mul_int_ivec2. Qed.
Lemma ag_op_rem_ivec2_ivec2 : agrees op_rem_ivec2_ivec2.
Proof. agree c_op_rem_ivec2_ivec2. Qed.
Lemma so_op_rem_ivec2_ivec2 : sound op_rem_ivec2_ivec2.
Proof. sound c_op_rem_ivec2_ivec2. Qed.
Lemma ag_op_or_ivec2_int : agrees op_or_ivec2_int.
Proof. agree c_op_or_ivec2_int. Qed.
Lemma so_op_or_ivec2_int : sound op_or_ivec2_int.
Proof. sound c_op_or_ivec2_int. Qed.
Lemma ag_op_and_int_ivec2 : agrees op_and_int_ivec2.
Proof. agree c_op_and_int_ivec2. Qed.
Lemma so_op_and_int_ivec2 : sound op_and_int_ivec2.
Proof. sound c_op_and_int_ivec2. Qed.
Lemma ag_op_shr_ivec2_ivec2 : agrees op_shr_ivec2_ivec2.
Proof. agree c_op_shr_ivec2_ivec2. Qed.
Lemma so_op_shr_ivec2_ivec2 : sound op_shr_ivec2_ivec2.
Proof. sound c_op_shr_ivec2_ivec2. Qed.
Lemma ag_op_shl_ivec2_int : agrees op_shl_ivec2_int.
Proof. agree c_op_shl_ivec2_int. Qed.
Lemma so_op_shl_ivec2_int : sound op_shl_ivec2_int.
Proof. sound c_op_shl_ivec2_int. Qed.
Lemma ag_ivec2__op_sub_assign_ivec2 : agrees ivec2__op_sub_assign_ivec2.
Proof. agree c_ivec2__op_sub_assign_ivec2. Qed.
Lemma so_ivec2__op_sub_assign_ivec2 : sound ivec2__op_sub_assign_ivec2.
Proof. sound c_ivec2__op_sub_assign_ivec2. Qed.
Lemma ag_ivec2__op_div_assign_ivec2 : agrees ivec2__op_div_assign_ivec2.
Proof. agree c_ivec2__op_div_assign_ivec2. Qed.
Lemma so_ivec2__op_div_assign_ivec2 : sound ivec2__op_div_assign_ivec2.
Proof. sound c_ivec2__op_div_assign_ivec2. Qed.
Lemma ag_ivec2__op_or_assign_ivec2 : agrees ivec2__op_or_assign_ivec2.
Proof. agree c_ivec2__op_or_assign_ivec2. Qed.
Lemma so_ivec2__op_or_assign_ivec2 : sound ivec2__op_or_assign_ivec2.
Proof. sound c_ivec2__op_or_assign_ivec2. Qed.
Lemma ag_ivec2__op_xor_assign_ivec2 : agrees ivec2__op_xor_assign_ivec2.
Proof. agree c_ivec2__op_xor_assign_ivec2. Qed.
Lemma so_ivec2__op_xor_assign_ivec2 : sound ivec2__op_xor_assign_ivec2.
Proof. sound c_ivec2__op_xor_assign_ivec2. Qed.
Lemma ag_ivec2__op_shl_assign_ivec2 : agrees ivec2__op_shl_assign_ivec2.
Proof. agree c_ivec2__op_shl_assign_ivec2. Qed.
Lemma so_ivec2__op_shl_assign_ivec2 : sound ivec2__op_shl_assign_ivec2.
Proof. sound c_ivec2__op_shl_assign_ivec2. Qed.
Lemma ag_op_lt_ivec2_ivec2 : agrees op_lt_ivec2_ivec2.
Proof. agree c_op_lt_ivec2_ivec2. Qed.
Lemma so_op_lt_ivec2_ivec2 : sound op_lt_ivec2_ivec2.
Proof. sound c_op_lt_ivec2_ivec2. Qed.
Lemma ag_ivec2__index : agrees ivec2__index.
Proof. agree_index c_ivec2__index. Qed.
Lemma so_ivec2__index : sound ivec2__index.
Proof. agree_index c_ivec2__index. Qed.
Lemma ag_ivec2__postinc : agrees ivec2__postinc.
Proof. agree c_ivec2__postinc. Qed.
Lemma so_ivec2__postinc : sound ivec2__postinc.
Proof. sound c_ivec2__postinc. Qed.
Lemma ag_ivec3__no_init_t : agrees ivec3__no_init_t.
Proof. agree c_ivec3__no_init_t. Qed.
Lemma so_ivec3__no_init_t : sound ivec3__no_init_t.
Proof. sound c_ivec3__no_init_t. Qed.
Lemma ag_ivec3__int_ivec2 : agrees ivec3__int_ivec2.
Proof. agree c_ivec3__int_ivec2. Qed.
Lemma so_ivec3__int_ivec2 : sound ivec3__int_ivec2.
Proof. sound c_ivec3__int_ivec2. Qed.
Lemma ag_op_add_int_ivec3 : agrees op_add_int_ivec3.
Proof. agree c_op_add_int_ivec3. Qed.
Lemma so_op_add_int_ivec3 : sound op_add_int_ivec3.
Proof. sound c_op_add_int_ivec3. Qed.
Lemma ag_op_mul_ivec3_ivec3 : agrees op_mul_ivec3_ivec3.
Proof. agree c_op_mul_ivec3_ivec3. Qed.
Lemma so_op_mul_ivec3_ivec3 : sound op_mul_ivec3_ivec3.
Proof. sound c_op_mul_ivec3_ivec3. Qed.
Lemma ag_op_div_ivec3_int : agrees op_div_ivec3_int.
Proof. agree c_op_div_ivec3_int. Qed.
Lemma so_op_div_ivec3_int : sound op_div_ivec3_int.
Proof. sound c_op_div_ivec3_int. Qed.
Lemma ag_op_rem_int_ivec3 : agrees op_rem_int_ivec3.
Proof. agree c_op_rem_int_ivec3. Qed.
Lemma so_op_rem_int_ivec3 : sound op_rem_int_ivec3.
Proof. sound c_op_rem_int_ivec3. Qed.
Lemma ag_op_and_ivec3_ivec3 : agrees op_and_ivec3_ivec3.
Proof. agree c_op_and_ivec3_ivec3. Qed.
Lemma so_op_and_ivec3_ivec3 : sound op_and_ivec3_ivec3.
Proof. sound c_op_and_ivec3_ivec3. Qed.
Lemma ag_op_xor_ivec3_int : agrees op_xor_ivec3_int.
Proof. agree c_op_xor_ivec3_int. Qed.
Lemma so_op_xor_ivec3_int : sound op_xor_ivec3_int.
Proof. sound c_op_xor_ivec3_int. Qed.
Lemma ag_op_shr_int_ivec3 : agrees op_shr_int_ivec3.
Proof. agree c_op_shr_int_ivec3. Qed.
Lemma so_op_shr_int_ivec3 : sound op_shr_int_ivec3.
Proof. sound c_op_shr_int_ivec3. Qed.
Lemma ag_ivec3__op_add_assign_ivec3 : agrees ivec3__op_add_assign_ivec3.
Proof. agree c_ivec3__op_add_assign_ivec3. Qed.
Lemma so_ivec3__op_add_assign_ivec3 : sound ivec3__op_add_assign_ivec3.
Proof. sound c_ivec3__op_add_assign_ivec3. Qed.
Lemma ag_ivec3__op_mul_assign_ivec3 : agrees ivec3__op_mul_assign_ivec3.
Proof. agree c_ivec3__op_mul_assign_ivec3. Qed.
Lemma so_ivec3__op_mul_assign_ivec3 : sound ivec3__op_mul_assign_ivec3.
Proof. sound c_ivec3__op_mul_assign_ivec3. Qed.
Lemma ag_ivec3__op_rem_assign_ivec3 : agrees ivec3__op_rem_assign_ivec3.
Proof. agree c_ivec3__op_rem_assign_ivec3. Qed.
Lemma so_ivec3__op_rem_assign_ivec3 : sound ivec3__op_rem_assign_ivec3.
Proof. sound c_ivec3__op_rem_assign_ivec3. Qed.
Lemma ag_ivec3__op_and_assign_ivec3 : agrees ivec3__op_and_assign_ivec3.
Proof. agree c_ivec3__op_and_assign_ivec3. Qed.
Lemma so_ivec3__op_and_assign_ivec3 : sound ivec3__op_and_assign_ivec3.
Proof. sound c_ivec3__op_and_assign_ivec3. Qed.
Lemma ag_ivec3__op_shr_assign_ivec3 : agrees ivec3__op_shr_assign_ivec3.
Proof. agree c_ivec3__op_shr_assign_ivec3. Qed.
Lemma so_ivec3__op_shr_assign_ivec3 : sound ivec3__op_shr_assign_ivec3.
Proof. sound c_ivec3__op_shr_assign_ivec3. Qed.
Lemma ag_op_sub_ivec3 : agrees op_sub_ivec3.
Proof. agree c_op_sub_ivec3. Qed.
Lemma so_op_sub_ivec3 : sound op_sub_ivec3.
Proof. sound c_op_sub_ivec3. Qed.
Lemma ag_ivec3__index : agrees ivec3__index.
Proof. agree_index c_ivec3__index. Qed.
Lemma so_ivec3__index : sound ivec3__index.
Proof. agree_index c_ivec3__index. Qed.
Lemma ag_ivec3__predec : agrees ivec3__predec.
Proof. agree c_ivec3__predec. Qed.
Lemma so_ivec3__predec : sound ivec3__predec.
Proof. sound c_ivec3__predec. Qed.
Lemma ag_op_le_ivec3_ivec3 : agrees op_le_ivec3_ivec3.
Proof. agree c_op_le_ivec3_ivec3. Qed.
Lemma so_op_le_ivec3_ivec3 : sound op_le_ivec3_ivec3.
Proof. sound c_op_le_ivec3_ivec3. Qed.
Lemma ag_ivec4__no_init_t : agrees ivec4__no_init_t.
Proof. agree c_ivec4__no_init_t. Qed.
Lemma so_ivec4__no_init_t : sound ivec4__no_init_t.
Proof. sound c_ivec4__no_init_t. Qed.
Lemma ag_ivec4__int_ivec3 : agrees ivec4__int_ivec3.
Proof. agree c_ivec4__int_ivec3. Qed.
Lemma so_ivec4__int_ivec3 : sound ivec4__int_ivec3.
Proof. sound c_ivec4__int_ivec3. Qed.
Lemma ag_ivec4__int_int_ivec2 : agrees ivec4__int_int_ivec2.
Proof. agree c_ivec4__int_int_ivec2. Qed.
Lemma so_ivec4__int_int_ivec2 : sound ivec4__int_int_ivec2.
Proof. sound c_ivec4__int_int_ivec2. Qed.
Lemma ag_op_add_int_ivec4 : agrees op_add_int_ivec4.
Proof. agree c_op_add_int_ivec4. Qed.
Lemma so_op_add_int_ivec4 : sound op_add_int_ivec4.
Proof. sound c_op_add_int_ivec4. Qed.
Lemma ag_op_mul_ivec4_ivec4 : agrees op_mul_ivec4_ivec4.
Proof. agree c_op_mul_ivec4_ivec4. Qed.
Lemma so_op_mul_ivec4_ivec4 : sound op_mul_ivec4_ivec4.
Proof. sound c_op_mul_ivec4_ivec4. Qed.
Lemma ag_op_div_ivec4_int : agrees op_div_ivec4_int.
Proof. agree c_op_div_ivec4_int. Qed.
Lemma so_op_div_ivec4_int : sound op_div_ivec4_int.
Proof. sound c_op_div_ivec4_int. Qed.
Lemma ag_ivec4__op_sub_assign_ivec4 : agrees ivec4__op_sub_assign_ivec4.
Proof. agree c_ivec4__op_sub_assign_ivec4. Qed.
Lemma so_ivec4__op_sub_assign_ivec4 : sound ivec4__op_sub_assign_ivec4.
Proof. sound c_ivec4__op_sub_assign_ivec4. Qed.
Lemma ag_ivec4__op_div_assign_ivec4 : agrees ivec4__op_div_assign_ivec4.
Proof. agree c_ivec4__op_div_assign_ivec4. Qed.
Lemma so_ivec4__op_div_assign_ivec4 : sound ivec4__op_div_assign_ivec4.
Proof. sound c_ivec4__op_div_assign_ivec4. Qed.
Lemma ag_ivec4__preinc : agrees ivec4__preinc.
Proof. agree c_ivec4__preinc. Qed.
Lemma so_ivec4__preinc : sound ivec4__preinc.
Proof. sound c_ivec4__preinc. Qed.
Lemma ag_op_eq_ivec4_ivec4 : agrees op_eq_ivec4_ivec4.
Proof. agree c_op_eq_ivec4_ivec4. Qed.
Lemma so_op_eq_ivec4_ivec4 : sound op_eq_ivec4_ivec4.
Proof. sound c_op_eq_ivec4_ivec4. Qed.
Lemma ag_op_gt_ivec4_ivec4 : agrees op_gt_ivec4_ivec4.
Proof. agree c_op_gt_ivec4_ivec4. Qed.
Lemma so_op_gt_ivec4_ivec4 : sound op_gt_ivec4_ivec4.
Proof. sound c_op_gt_ivec4_ivec4. Qed.
Lemma ag_ivec4__to_bvec4 : agrees ivec4__to_bvec4.
Proof. agree c_ivec4__to_bvec4. Qed.
Lemma so_ivec4__to_bvec4 : sound ivec4__to_bvec4.
Proof. sound c_ivec4__to_bvec4. Qed.
Lemma ag_op_land_bvec2_bvec2 : agrees op_land_bvec2_bvec2.
Proof. agree c_op_land_bvec2_bvec2. Qed.
Lemma so_op_land_bvec2_bvec2 : sound op_land_bvec2_bvec2.
Proof. sound c_op_land_bvec2_bvec2. Qed.
Lemma ag_op_lor_bvec2_bool : agrees op_lor_bvec2_bool.
Proof. agree c_op_lor_bvec2_bool. Qed.
Lemma so_op_lor_bvec2_bool : sound op_lor_bvec2_bool.
Proof. sound c_op_lor_bvec2_bool. Qed.
Lemma ag_op_xor_bool_bvec2 : agrees op_xor_bool_bvec2.
Proof. agree c_op_xor_bool_bvec2. Qed.
Lemma so_op_xor_bool_bvec2 : sound op_xor_bool_bvec2.
Proof. sound c_op_xor_bool_bvec2. Qed.
Lemma ag_bvec2__op_xor_assign_bool : agrees bvec2__op_xor_assign_bool.
Proof. agree c_bvec2__op_xor_assign_bool. Qed.
Lemma so_bvec2__op_xor_assign_bool : sound bvec2__op_xor_assign_bool.
Proof. sound c_bvec2__op_xor_assign_bool. Qed.
Lemma ag_op_eq_bvec2_bvec2 : agrees op_eq_bvec2_bvec2.
Proof. agree_bool c_op_eq_bvec2_bvec2. Qed.
Lemma so_op_eq_bvec2_bvec2 : sound op_eq_bvec2_bvec2.
Proof. sound c_op_eq_bvec2_bvec2. Qed.
Lemma ag_make_bvec2_bool_ptr : agrees make_bvec2_bool_ptr.
Proof. start_ptr c_make_bvec2_bool_ptr inv_ptr_bool dPB_map 2. Qed.
Lemma so_make_bvec2_bool_ptr : sound make_bvec2_bool_ptr.
Proof. start_ptr c_make_bvec2_bool_ptr inv_ptr_bool dPB_map 2. Qed.
Lemma ag_bvec3__bvec2_bool : agrees bvec3__bvec2_bool.
Proof. agree c_bvec3__bvec2_bool. Qed.
Lemma so_bvec3__bvec2_bool : sound bvec3__bvec2_bool.
Proof. sound c_bvec3__bvec2_bool. Qed.
Lemma ag_op_land_bool_bvec3 : agrees op_land_bool_bvec3.
Proof. agree c_op_land_bool_bvec3. Qed.
Lemma so_op_land_bool_bvec3 : sound op_land_bool_bvec3.
Proof. sound c_op_land_bool_bvec3. Qed.
Lemma ag_op_xor_bvec3_bvec3 : agrees op_xor_bvec3_bvec3.
Proof. agree c_op_xor_bvec3_bvec3. Qed.
Lemma so_op_xor_bvec3_bvec3 : sound op_xor_bvec3_bvec3.
Proof. sound c_op_xor_bvec3_bvec3. Qed.
Lemma ag_bvec3__op_and_assign_bool : agrees bvec3__op_and_assign_bool.
Proof. agree c_bvec3__op_and_assign_bool. Qed.
Lemma so_bvec3__op_and_assign_bool : sound bvec3__op_and_assign_bool.
Proof. sound c_bvec3__op_and_assign_bool. Qed.
Lemma ag_bvec3__op_or_assign_bvec3 : agrees bvec3__op_or_assign_bvec3.
Proof. agree c_bvec3__op_or_assign_bvec3. Qed.
Lemma so_bvec3__op_or_assign_bvec3 : sound bvec3__op_or_assign_bvec3.
Proof. sound c_bvec3__op_or_assign_bvec3. Qed.
Lemma ag_bvec3__index : agrees bvec3__index.
Proof. agree_index c_bvec3__index. Qed.
Lemma so_bvec3__index : sound bvec3__index.
Proof. agree_index c_bvec3__index. Qed.
Lemma ag_bvec4__bool : agrees bvec4__bool.
Proof. agree c_bvec4__bool. Qed.
Lemma so_bvec4__bool : sound bvec4__bool.
Proof. sound c_bvec4__bool. Qed.
Lemma ag_bvec4__bvec2_bvec2 : agrees bvec4__bvec2_bvec2.
Proof. agree c_bvec4__bvec2_bvec2. Qed.
Lemma so_bvec4__bvec2_bvec2 : sound bvec4__bvec2_bvec2.
Proof. sound c_bvec4__bvec2_bvec2. Qed.
Lemma ag_op_land_bvec4_bvec4 : agrees op_land_bvec4_bvec4.
Proof. agree c_op_land_bvec4_bvec4. Qed.
Lemma so_op_land_bvec4_bvec4 : sound op_land_bvec4_bvec4.
Proof. sound c_op_land_bvec4_bvec4. Qed.
Lemma ag_op_lor_bvec4_bool : agrees op_lor_bvec4_bool.
Proof. agree c_op_lor_bvec4_bool. Qed.
Lemma so_op_lor_bvec4_bool : sound op_lor_bvec4_bool.
Proof. sound c_op_lor_bvec4_bool. Qed.
Lemma ag_op_xor_bool_bvec4 : agrees op_xor_bool_bvec4.
Proof. agree c_op_xor_bool_bvec4. Qed.
Lemma so_op_xor_bool_bvec4 : sound op_xor_bool_bvec4.
Proof. sound c_op_xor_bool_bvec4. Qed.
Lemma ag_bvec4__op_and_assign_bool : agrees bvec4__op_and_assign_bool.
Proof. agree c_bvec4__op_and_assign_bool. Qed.
Lemma so_bvec4__op_and_assign_bool : sound bvec4__op_and_assign_bool.
Proof. sound c_bvec4__op_and_assign_bool. Qed.
Lemma ag_bvec4__op_or_assign_bvec4 : agrees bvec4__op_or_assign_bvec4.
Proof. agree c_bvec4__op_or_assign_bvec4. Qed.
Lemma so_bvec4__op_or_assign_bvec4 : sound bvec4__op_or_assign_bvec4.
Proof. sound c_bvec4__op_or_assign_bvec4. Qed.
Lemma ag_make_bvec4_bool_ptr : agrees make_bvec4_bool_ptr.
Proof. start_ptr c_make_bvec4_bool_ptr inv_ptr_bool dPB_map 4. Qed.
Lemma so_make_bvec4_bool_ptr : sound make_bvec4_bool_ptr.
Proof. start_ptr c_make_bvec4_bool_ptr inv_ptr_bool dPB_map 4. Qed.
Lemma ag_mat2__float_float_float_float : agrees mat2__float_float_float_float.
Proof. agree c_mat2__float_float_float_float. Qed.
Lemma so_mat2__float_float_float_float : sound mat2__float_float_float_float.
Proof. sound c_mat2__float_float_float_float. Qed.
Lemma ag_op_add_mat2_mat2 : agrees op_add_mat2_mat2.
Proof. agree c_op_add_mat2_mat2. Qed.
Lemma so_op_add_mat2_mat2 : sound op_add_mat2_mat2.
Proof. sound c_op_add_mat2_mat2. Qed.
Lemma ag_op_mul_mat2_mat2 : agrees op_mul_mat2_mat2.
Proof. agree c_op_mul_mat2_mat2. Qed.
Lemma so_op_mul_mat2_mat2 : sound op_mul_mat2_mat2.
Proof. sound c_op_mul_mat2_mat2. Qed.
Lemma ag_op_mul_float_mat2 : agrees op_mul_float_mat2.
Proof. agree c_op_mul_float_mat2. Qed.
Lemma so_op_mul_float_mat2 : sound op_mul_float_mat2.
Proof. sound c_op_mul_float_mat2. Qed.
Lemma ag_op_div_mat2_vec2 : agrees op_div_mat2_vec2.
Proof. agree c_op_div_mat2_vec2. Qed.
Lemma so_op_div_mat2_vec2 : sound op_div_mat2_vec2.
Proof. sound c_op_div_mat2_vec2. Qed.
Lemma ag_mat2__op_mul_assign_mat2 : agrees mat2__op_mul_assign_mat2.
Proof. agree c_mat2__op_mul_assign_mat2. Qed.
Lemma so_mat2__op_mul_assign_mat2 : sound mat2__op_mul_assign_mat2.
Proof. sound c_mat2__op_mul_assign_mat2. Qed.
Lemma ag_make_mat2_float_ptr : agrees make_mat2_float_ptr.
Proof. start_ptr c_make_mat2_float_ptr inv_ptr_float dPF_map 4. Qed.
Lemma so_make_mat2_float_ptr : sound make_mat2_float_ptr.
Proof. start_ptr c_make_mat2_float_ptr inv_ptr_float dPF_map 4. Qed.
Lemma ag_mat3__mat2 : agrees mat3__mat2.
Proof. agree c_mat3__mat2. Qed.
Lemma so_mat3__mat2 : sound mat3__mat2.
Proof. sound c_mat3__mat2. Qed.
Lemma ag_op_add_mat3_mat3 : agrees op_add_mat3_mat3.
Proof. agree c_op_add_mat3_mat3. Qed.
Lemma so_op_add_mat3_mat3 : sound op_add_mat3_mat3.
Proof. sound c_op_add_mat3_mat3. Qed.
Lemma ag_op_mul_mat3_mat3 : agrees op_mul_mat3_mat3.
Proof. agree c_op_mul_mat3_mat3. Qed.
Lemma so_op_mul_mat3_mat3 : sound op_mul_mat3_mat3.
Proof. sound c_op_mul_mat3_mat3. Qed.
Lemma ag_op_mul_float_mat3 : agrees op_mul_float_mat3.
Proof. agree c_op_mul_float_mat3. Qed.
Lemma so_op_mul_float_mat3 : sound op_mul_float_mat3.
Proof. sound c_op_mul_float_mat3. Qed.
Lemma ag_mat3__op_add_assign_mat3 : agrees mat3__op_add_assign_mat3.
Proof. agree c_mat3__op_add_assign_mat3. Qed.
Lemma so_mat3__op_add_assign_mat3 : sound mat3__op_add_assign_mat3.
Proof. sound c_mat3__op_add_assign_mat3. Qed.
Lemma ag_op_mul_mat3_vec3 : agrees op_mul_mat3_vec3.
Proof. agree c_op_mul_mat3_vec3. Qed.
Lemma so_op_mul_mat3_vec3 : sound op_mul_mat3_vec3.
Proof. sound c_op_mul_mat3_vec3. Qed.
Lemma ag_op_eq_mat3_mat3 : agrees op_eq_mat3_mat3.
Proof. agree c_op_eq_mat3_mat3. Qed.
Lemma so_op_eq_mat3_mat3 : sound op_eq_mat3_mat3.
Proof. sound c_op_eq_mat3_mat3. Qed.
Lemma ag_mat4__no_init_t : agrees mat4__no_init_t.
Proof. agree c_mat4__no_init_t. Qed.
Lemma so_mat4__no_init_t : sound mat4__no_init_t.
Proof. sound c_mat4__no_init_t. Qed.
Lemma ag_mat4__mat3 : agrees mat4__mat3.
Proof. agree c_mat4__mat3. Qed.
Lemma so_mat4__mat3 : sound mat4__mat3.
Proof. sound c_mat4__mat3. Qed.
Lemma ag_op_sub_mat4 : agrees op_sub_mat4.
Proof. agree c_op_sub_mat4. Qed.
Lemma so_op_sub_mat4 : sound op_sub_mat4.
Proof. sound c_op_sub_mat4. Qed.
Lemma ag_op_mul_mat4_float : agrees op_mul_mat4_float.
Proof. agree c_op_mul_mat4_float. Qed.
Lemma so_op_mul_mat4_float : sound op_mul_mat4_float.
Proof. sound c_op_mul_mat4_float. Qed.
Lemma ag_mat4__op_add_assign_mat4 : agrees mat4__op_add_assign_mat4.
Proof. agree c_mat4__op_add_assign_mat4. Qed.
Lemma so_mat4__op_add_assign_mat4 : sound mat4__op_add_assign_mat4.
Proof. sound c_mat4__op_add_assign_mat4. Qed.
Lemma ag_mat4__index : agrees mat4__index.
Proof. agree_index c_mat4__index. Qed.
Lemma so_mat4__index : sound mat4__index.
Proof. agree_index c_mat4__index. Qed.
Lemma ag_op_div_mat4_vec4 : agrees op_div_mat4_vec4.
Proof. agree c_op_div_mat4_vec4. Qed.
Lemma so_op_div_mat4_vec4 : sound op_div_mat4_vec4.
Proof. sound c_op_div_mat4_vec4. Qed.
Lemma ag_make_mat4_float_ptr : agrees make_mat4_float_ptr.
Proof. start_ptr c_make_mat4_float_ptr inv_ptr_float dPF_map 16. Qed.
Lemma so_make_mat4_float_ptr : sound make_mat4_float_ptr.
Proof. start_ptr c_make_mat4_float_ptr inv_ptr_float dPF_map 16. Qed.
Lemma ag_quat__float_vec3 : agrees quat__float_vec3.
Proof. agree c_quat__float_vec3. Qed.
Lemma so_quat__float_vec3 : sound quat__float_vec3.
Proof. sound c_quat__float_vec3. Qed.
Lemma ag_quat__vec3 : agrees quat__vec3.
Proof. agree c_quat__vec3. Qed.
Lemma so_quat__vec3 : sound quat__vec3.
Proof. sound c_quat__vec3. Qed.
Lemma ag_quat__op_add_assign_quat : agrees quat__op_add_assign_quat.
Proof. agree c_quat__op_add_assign_quat. Qed.
Lemma so_quat__op_add_assign_quat : sound quat__op_add_assign_quat.
Proof. sound c_quat__op_add_assign_quat. Qed.
Lemma ag_quat__op_div_assign_float : agrees quat__op_div_assign_float.
Proof. agree c_quat__op_div_assign_float. Qed.
Lemma so_quat__op_div_assign_float : sound quat__op_div_assign_float.
Proof. sound c_quat__op_div_assign_float. Qed.
Lemma ag_op_sub_quat : agrees op_sub_quat.
Proof. agree c_op_sub_quat. Qed.
Lemma so_op_sub_quat : sound op_sub_quat.
Proof. sound c_op_sub_quat. Qed.
Lemma ag_op_div_float_quat : agrees op_div_float_quat.
Proof. agree c_op_div_float_quat. Qed.
Lemma so_op_div_float_quat : sound op_div_float_quat.
Proof. sound c_op_div_float_quat. Qed.
Lemma ag_op_eq_quat_quat : agrees op_eq_quat_quat.
Proof. agree c_op_eq_quat_quat. Qed.
Lemma so_op_eq_quat_quat : sound op_eq_quat_quat.
Proof. sound c_op_eq_quat_quat. Qed.
Lemma ag_abs_vec3 : agrees abs_vec3.
Proof. agree c_abs_vec3. Qed.
Lemma so_abs_vec3 : sound abs_vec3.
Proof. sound c_abs_vec3. Qed.
Lemma ag_abs_ivec3 : agrees abs_ivec3.
Proof. agree c_abs_ivec3. Qed.
Lemma so_abs_ivec3 : sound abs_ivec3.
Proof. sound c_abs_ivec3. Qed.
Lemma ag_ceil_vec3 : agrees ceil_vec3.
Proof. agree c_ceil_vec3. Qed.
Lemma so_ceil_vec3 : sound ceil_vec3.
Proof. sound c_ceil_vec3. Qed.
Lemma ag_clamp_vec3_vec3_vec3 : agrees clamp_vec3_vec3_vec3.
Proof. agree c_clamp_vec3_vec3_vec3. Qed.
Lemma so_clamp_vec3_vec3_vec3 : sound clamp_vec3_vec3_vec3.
Proof. sound c_clamp_vec3_vec3_vec3. Qed.
Lemma ag_clamp_ivec3_ivec3_ivec3 : agrees clamp_ivec3_ivec3_ivec3.
Proof. agree c_clamp_ivec3_ivec3_ivec3. Qed.
Lemma so_clamp_ivec3_ivec3_ivec3 : sound clamp_ivec3_ivec3_ivec3.
Proof. sound c_clamp_ivec3_ivec3_ivec3. Qed.
Lemma ag_floor_vec3 : agrees floor_vec3.
Proof. agree c_floor_vec3. Qed.
Lemma so_floor_vec3 : sound floor_vec3.
Proof. sound c_floor_vec3. Qed.
Lemma ag_fma_vec3_vec3_vec3 : agrees fma_vec3_vec3_vec3.
Proof. agree c_fma_vec3_vec3_vec3. Qed.
Lemma so_fma_vec3_vec3_vec3 : sound fma_vec3_vec3_vec3.
Proof. sound c_fma_vec3_vec3_vec3. Qed.
Lemma ag_fract_vec3 : agrees fract_vec3.
Proof. agree c_fract_vec3. Qed.
Lemma so_fract_vec3 : sound fract_vec3.
Proof. sound c_fract_vec3. Qed.
Lemma ag_max_vec3_vec3 : agrees max_vec3_vec3.
Proof. agree c_max_vec3_vec3. Qed.
Lemma so_max_vec3_vec3 : sound max_vec3_vec3.
Proof. sound c_max_vec3_vec3. Qed.
Lemma ag_max_ivec3_ivec3 : agrees max_ivec3_ivec3.
Proof. agree c_max_ivec3_ivec3. Qed.
Lemma so_max_ivec3_ivec3 : sound max_ivec3_ivec3.
Proof. sound c_max_ivec3_ivec3. Qed.
Lemma ag_min_vec3_vec3 : agrees min_vec3_vec3.
Proof. agree c_min_vec3_vec3. Qed.
Lemma so_min_vec3_vec3 : sound min_vec3_vec3.
Proof. sound c_min_vec3_vec3. Qed.
Lemma ag_min_ivec3_ivec3 : agrees min_ivec3_ivec3.
Proof. agree c_min_ivec3_ivec3. Qed.
Lemma so_min_ivec3_ivec3 : sound min_ivec3_ivec3.
Proof. sound c_min_ivec3_ivec3. Qed.
Lemma ag_mod_vec3_vec3 : agrees mod_vec3_vec3.
Proof. agree c_mod_vec3_vec3. Qed.
Lemma so_mod_vec3_vec3 : sound mod_vec3_vec3.
Proof. sound c_mod_vec3_vec3. Qed.
Lemma ag_mod_vec4_float : agrees mod_vec4_float.
Proof. agree c_mod_vec4_float. Qed.
Lemma so_mod_vec4_float : sound mod_vec4_float.
Proof. sound c_mod_vec4_float. Qed.
Lemma ag_round_vec4 : agrees round_vec4.
Proof. agree c_round_vec4. Qed.
Lemma so_round_vec4 : sound round_vec4.
Proof. sound c_round_vec4. Qed.
Lemma ag_roundEven_vec4 : agrees roundEven_vec4.
Proof. agree c_roundEven_vec4. Qed.
Lemma so_roundEven_vec4 : sound roundEven_vec4.
Proof. sound c_roundEven_vec4. Qed.
Lemma ag_sign_vec4 : agrees sign_vec4.
Proof. agree c_sign_vec4. Qed.
Lemma so_sign_vec4 : sound sign_vec4.
Proof. sound c_sign_vec4. Qed.
Lemma ag_sign_ivec4 : agrees sign_ivec4.
Proof. agree c_sign_ivec4. Qed.
Lemma so_sign_ivec4 : sound sign_ivec4.
Proof. sound c_sign_ivec4. Qed.
Lemma ag_signNotZero_vec4 : agrees signNotZero_vec4.
Proof. agree c_signNotZero_vec4. Qed.
Lemma so_signNotZero_vec4 : sound signNotZero_vec4.
Proof. sound c_signNotZero_vec4. Qed.
Lemma ag_signNotZero_ivec4 : agrees signNotZero_ivec4.
Proof. agree c_signNotZero_ivec4. Qed.
Lemma so_signNotZero_ivec4 : sound signNotZero_ivec4.
Proof. sound c_signNotZero_ivec4. Qed.
Lemma ag_trunc_vec4 : agrees trunc_vec4.
Proof. agree c_trunc_vec4. Qed.
Lemma so_trunc_vec4 : sound trunc_vec4.
Proof. sound c_trunc_vec4. Qed.
Lemma ag_smoothstep_vec4_vec4_vec4 : agrees smoothstep_vec4_vec4_vec4.
Proof. agree c_smoothstep_vec4_vec4_vec4. Qed.
Lemma so_smoothstep_vec4_vec4_vec4 : sound smoothstep_vec4_vec4_vec4.
Proof. sound c_smoothstep_vec4_vec4_vec4. Qed.
Lemma ag_step_vec4_vec4 : agrees step_vec4_vec4.
Proof. agree c_step_vec4_vec4. Qed.
Lemma so_step_vec4_vec4 : sound step_vec4_vec4.
Proof. sound c_step_vec4_vec4. Qed.
Lemma ag_mix_vec4_vec4_vec4 : agrees mix_vec4_vec4_vec4.
Proof. agree c_mix_vec4_vec4_vec4. Qed.
Lemma so_mix_vec4_vec4_vec4 : sound mix_vec4_vec4_vec4.
Proof. sound c_mix_vec4_vec4_vec4. Qed.
Lemma ag_mix_float_float_bool : agrees mix_float_float_bool.
Proof. agree c_mix_float_float_bool. Qed.
Lemma so_mix_float_float_bool : sound mix_float_float_bool.
Proof. sound c_mix_float_float_bool. Qed.
Lemma ag_isinf_float : agrees isinf_float.
Proof. agree c_isinf_float. Qed.
Lemma so_isinf_float : sound isinf_float.
Proof. sound c_isinf_float. Qed.
Lemma ag_isinf_quat : agrees isinf_quat.
Proof. agree c_isinf_quat. Qed.
Lemma so_isinf_quat : sound isinf_quat.
Proof. sound c_isinf_quat. Qed.
Lemma ag_isnan_vec4 : agrees isnan_vec4.
Proof. agree c_isnan_vec4. Qed.
Lemma so_isnan_vec4 : sound isnan_vec4.
Proof. sound c_isnan_vec4. Qed.
Lemma ag_lessThan_vec4_vec4 : agrees lessThan_vec4_vec4.
Proof. agree c_lessThan_vec4_vec4. Qed.
Lemma so_lessThan_vec4_vec4 : sound lessThan_vec4_vec4.
Proof. sound c_lessThan_vec4_vec4. Qed.
Lemma ag_greaterThan_vec2_vec2 : agrees greaterThan_vec2_vec2.
Proof. agree c_greaterThan_vec2_vec2. Qed.
Lemma so_greaterThan_vec2_vec2 : sound greaterThan_vec2_vec2.
Proof. sound c_greaterThan_vec2_vec2. Qed.
Lemma ag_greaterThanEqual_vec3_vec3 : agrees greaterThanEqual_vec3_vec3.
Proof. agree c_greaterThanEqual_vec3_vec3. Qed.
Lemma so_greaterThanEqual_vec3_vec3 : sound greaterThanEqual_vec3_vec3.
Proof. sound c_greaterThanEqual_vec3_vec3. Qed.
Lemma ag_equal_vec4_vec4 : agrees equal_vec4_vec4.
Proof. agree c_equal_vec4_vec4. Qed.
Lemma so_equal_vec4_vec4 : sound equal_vec4_vec4.
Proof. sound c_equal_vec4_vec4. Qed.
Lemma ag_equal_bvec4_bvec4 : agrees equal_bvec4_bvec4.
Proof. agree c_equal_bvec4_bvec4. Qed.
Lemma so_equal_bvec4_bvec4 : sound equal_bvec4_bvec4.
Proof. sound c_equal_bvec4_bvec4. Qed.
Lemma ag_notEqual_quat_quat : agrees notEqual_quat_quat.
Proof. agree c_notEqual_quat_quat. Qed.
Lemma so_notEqual_quat_quat : sound notEqual_quat_quat.
Proof. sound c_notEqual_quat_quat. Qed.
Lemma ag_all_bvec2 : agrees all_bvec2.
Proof. agree c_all_bvec2. Qed.
Lemma so_all_bvec2 : sound all_bvec2.
Proof. sound c_all_bvec2. Qed.
Lemma ag_any_bvec3 : agrees any_bvec3.
Proof. agree c_any_bvec3. Qed.
Lemma so_any_bvec3 : sound any_bvec3.
Proof. sound c_any_bvec3. Qed.
Lemma ag_dot_vec3_vec3 : agrees dot_vec3_vec3.
Proof. agree c_dot_vec3_vec3. Qed.
Lemma so_dot_vec3_vec3 : sound dot_vec3_vec3.
Proof. sound c_dot_vec3_vec3. Qed.
Lemma ag_normalize_vec2 : agrees normalize_vec2.
Proof. agree c_normalize_vec2. Qed.
Lemma so_normalize_vec2 : sound normalize_vec2.
Proof. sound c_normalize_vec2. Qed.
Lemma ag_distance_float_float : agrees distance_float_float.
Proof. agree c_distance_float_float. Qed.
Lemma so_distance_float_float : sound distance_float_float.
Proof. sound c_distance_float_float. Qed.
Lemma ag_faceforward_float_float_float : agrees faceforward_float_float_float.
Proof. agree c_faceforward_float_float_float. Qed.
Lemma so_faceforward_float_float_float : sound faceforward_float_float_float.
Proof. sound c_faceforward_float_float_float. Qed.
Lemma ag_reflect_float_float : agrees reflect_float_float.
Proof. agree c_reflect_float_float. Qed.
Lemma so_reflect_float_float : sound reflect_float_float.
Proof. sound c_reflect_float_float. Qed.
Lemma ag_refract_float_float_float : agrees refract_float_float_float.
Proof. agree c_refract_float_float_float. Qed.
Lemma so_refract_float_float_float : sound refract_float_float_float.
Proof. sound c_refract_float_float_float. Qed.
Lemma ag_length_float : agrees length_float.
Proof. agree c_length_float. Qed.
Lemma so_length_float : sound length_float.
Proof. sound c_length_float. Qed.
Lemma ag_length_quat : agrees length_quat.
Proof. agree c_length_quat. Qed.
Lemma so_length_quat : sound length_quat.
Proof. sound c_length_quat. Qed.
Lemma ag_length2_vec4 : agrees length2_vec4.
Proof. agree c_length2_vec4. Qed.
Lemma so_length2_vec4 : sound length2_vec4.
Proof. sound c_length2_vec4. Qed.
Lemma ag_distance2_vec3_vec3 : agrees distance2_vec3_vec3.
Proof. agree c_distance2_vec3_vec3. Qed.
Lemma so_distance2_vec3_vec3 : sound distance2_vec3_vec3.
Proof. sound c_distance2_vec3_vec3. Qed.
Lemma ag_encode_octahedral_vec3 : agrees encode_octahedral_vec3.
Proof. agree c_encode_octahedral_vec3. Qed.
Lemma so_encode_octahedral_vec3 : sound encode_octahedral_vec3.
Proof. sound c_encode_octahedral_vec3. Qed.
Lemma ag_sqrt_vec3 : agrees sqrt_vec3.
Proof. agree c_sqrt_vec3. Qed.
Lemma so_sqrt_vec3 : sound sqrt_vec3.
Proof. sound c_sqrt_vec3. Qed.
Lemma ag_pow_vec2_vec2 : agrees pow_vec2_vec2.
Proof. agree c_pow_vec2_vec2. Qed.
Lemma so_pow_vec2_vec2 : sound pow_vec2_vec2.
Proof. sound c_pow_vec2_vec2. Qed.
Lemma ag_log_float : agrees log_float.
Proof. agree c_log_float. Qed.
Lemma so_log_float : sound log_float.
Proof. sound c_log_float. Qed.
Lemma ag_log_quat : agrees log_quat.
Proof. agree c_log_quat. Qed.
Lemma so_log_quat : sound log_quat.
Proof. sound c_log_quat. Qed.
Lemma ag_log2_vec4 : agrees log2_vec4.
Proof. agree c_log2_vec4. Qed.
Lemma so_log2_vec4 : sound log2_vec4.
Proof. sound c_log2_vec4. Qed.
Lemma ag_inversesqrt_vec3 : agrees inversesqrt_vec3.
Proof. agree c_inversesqrt_vec3. Qed.
Lemma so_inversesqrt_vec3 : sound inversesqrt_vec3.
Proof. sound c_inversesqrt_vec3. Qed.
Lemma ag_exp_vec2 : agrees exp_vec2.
Proof. agree c_exp_vec2. Qed.
Lemma so_exp_vec2 : sound exp_vec2.
Proof. sound c_exp_vec2. Qed.
Lemma ag_exp2_float : agrees exp2_float.
Proof. agree c_exp2_float. Qed.
Lemma so_exp2_float : sound exp2_float.
Proof. sound c_exp2_float. Qed.
Lemma ag_exp2_quat : agrees exp2_quat.
Proof. agree c_exp2_quat. Qed.
Lemma so_exp2_quat : sound exp2_quat.
Proof. sound c_exp2_quat. Qed.
Lemma ag_cbrt_vec4 : agrees cbrt_vec4.
Proof. agree c_cbrt_vec4. Qed.
Lemma so_cbrt_vec4 : sound cbrt_vec4.
Proof. sound c_cbrt_vec4. Qed.
Lemma ag_cos_float : agrees cos_float.
Proof. agree c_cos_float. Qed.
Lemma so_cos_float : sound cos_float.
Proof. sound c_cos_float. Qed.
Lemma ag_sin_float : agrees sin_float.
Proof. agree c_sin_float. Qed.
Lemma so_sin_float : sound sin_float.
Proof. sound c_sin_float. Qed.
Lemma ag_acos_float : agrees acos_float.
Proof. agree c_acos_float. Qed.
Lemma so_acos_float : sound acos_float.
Proof. sound c_acos_float. Qed.
Lemma ag_acosh_float : agrees acosh_float.
Proof. agree c_acosh_float. Qed.
Lemma so_acosh_float : sound acosh_float.
Proof. sound c_acosh_float. Qed.
Lemma ag_asin_float : agrees asin_float.
Proof. agree c_asin_float. Qed.
Lemma so_asin_float : sound asin_float.
Proof. sound c_asin_float. Qed.
Lemma ag_asinh_float : agrees asinh_float.
Proof. agree c_asinh_float. Qed.
Lemma so_asinh_float : sound asinh_float.
Proof. sound c_asinh_float. Qed.
Lemma ag_atan_float_float : agrees atan_float_float.
Proof. agree c_atan_float_float. Qed.
Lemma so_atan_float_float : sound atan_float_float.
Proof. sound c_atan_float_float. Qed.
Lemma ag_atan_float : agrees atan_float.
Proof. agree c_atan_float. Qed.
Lemma so_atan_float : sound atan_float.
Proof. sound c_atan_float. Qed.
Lemma ag_atanh_float : agrees atanh_float.
Proof. agree c_atanh_float. Qed.
Lemma so_atanh_float : sound atanh_float.
Proof. sound c_atanh_float. Qed.
Lemma ag_cosh_float : agrees cosh_float.
Proof. agree c_cosh_float. Qed.
Lemma so_cosh_float : sound cosh_float.
Proof. sound c_cosh_float. Qed.
Lemma ag_degrees_float : agrees degrees_float.
Proof. agree c_degrees_float. Qed.
Lemma so_degrees_float : sound degrees_float.
Proof. sound c_degrees_float. Qed.
Lemma ag_radians_float : agrees radians_float.
Proof. agree c_radians_float. Qed.
Lemma so_radians_float : sound radians_float.
Proof. sound c_radians_float. Qed.
Lemma ag_sinh_float : agrees sinh_float.
Proof. agree c_sinh_float. Qed.
Lemma so_sinh_float : sound sinh_float.
Proof. sound c_sinh_float. Qed.
Lemma ag_tan_float : agrees tan_float.
Proof. agree c_tan_float. Qed.
Lemma so_tan_float : sound tan_float.
Proof. sound c_tan_float. Qed.
Lemma ag_tanh_float : agrees tanh_float.
Proof. agree c_tanh_float. Qed.
Lemma so_tanh_float : sound tanh_float.
Proof. sound c_tanh_float. Qed.
Lemma ag_compAdd_vec2 : agrees compAdd_vec2.
Proof. agree c_compAdd_vec2. Qed.
Lemma so_compAdd_vec2 : sound compAdd_vec2.
Proof. sound c_compAdd_vec2. Qed.
Lemma ag_compAdd_ivec3 : agrees compAdd_ivec3.
Proof. agree c_compAdd_ivec3. Qed.
Lemma so_compAdd_ivec3 : sound compAdd_ivec3.
Proof. sound c_compAdd_ivec3. Qed.
Lemma ag_compMul_vec4 : agrees compMul_vec4.
Proof. agree c_compMul_vec4. Qed.
Lemma so_compMul_vec4 : sound compMul_vec4.
Proof. sound c_compMul_vec4. Qed.
Lemma ag_compMin_vec2 : agrees compMin_vec2.
Proof. agree c_compMin_vec2. Qed.
Lemma so_compMin_vec2 : sound compMin_vec2.
Proof. sound c_compMin_vec2. Qed.
Lemma ag_compMin_ivec3 : agrees compMin_ivec3.
Proof. agree c_compMin_ivec3. Qed.
Lemma so_compMin_ivec3 : sound compMin_ivec3.
Proof. sound c_compMin_ivec3. Qed.
Lemma ag_compMax_vec4 : agrees compMax_vec4.
Proof. agree c_compMax_vec4. Qed.
Lemma so_compMax_vec4 : sound compMax_vec4.
Proof. sound c_compMax_vec4. Qed.
Lemma ag_epsilon : agrees epsilon.
Proof. agree c_epsilon. Qed.
Lemma so_epsilon : sound epsilon.
Proof. sound c_epsilon. Qed.
Lemma ag_two_pi : agrees two_pi.
Proof. agree c_two_pi. Qed.
Lemma so_two_pi : sound two_pi.
Proof. sound c_two_pi. Qed.
Lemma ag_quarter_pi : agrees quarter_pi.
Proof. agree c_quarter_pi. Qed.
Lemma so_quarter_pi : sound quarter_pi.
Proof. sound c_quarter_pi. Qed.
Lemma ag_four_over_pi : agrees four_over_pi.
Proof. agree c_four_over_pi. Qed.
Lemma so_four_over_pi : sound four_over_pi.
Proof. sound c_four_over_pi. Qed.
Lemma ag_root_two_pi : agrees root_two_pi.
Proof. agree c_root_two_pi. Qed.
Lemma so_root_two_pi : sound root_two_pi.
Proof. sound c_root_two_pi. Qed.
Lemma ag_root_two : agrees root_two.
Proof. agree c_root_two. Qed.
Lemma so_root_two : sound root_two.
Proof. sound c_root_two. Qed.
Lemma ag_ln_ten : agrees ln_ten.
Proof. agree c_ln_ten. Qed.
Lemma so_ln_ten : sound ln_ten.
Proof. sound c_ln_ten. Qed.
Lemma ag_golden_ratio : agrees golden_ratio.
Proof. agree c_golden_ratio. Qed.
Lemma so_golden_ratio : sound golden_ratio.
Proof. sound c_golden_ratio. Qed.
Lemma ag_convertLinearToSRGB_vec4 : agrees convertLinearToSRGB_vec4.
Proof. agree c_convertLinearToSRGB_vec4. Qed.
Lemma so_convertLinearToSRGB_vec4 : sound convertLinearToSRGB_vec4.
Proof. sound c_convertLinearToSRGB_vec4. Qed.
Lemma ag_convertSRGBToLinear_vec4 : agrees convertSRGBToLinear_vec4.
Proof. agree c_convertSRGBToLinear_vec4. Qed.
Lemma so_convertSRGBToLinear_vec4 : sound convertSRGBToLinear_vec4.
Proof. sound c_convertSRGBToLinear_vec4. Qed.
Lemma ag_transpose_mat2 : agrees transpose_mat2.
Proof. agree c_transpose_mat2. Qed.
Lemma so_transpose_mat2 : sound transpose_mat2.
Proof. sound c_transpose_mat2. Qed.
Lemma ag_determinant_mat3 : agrees determinant_mat3.
Proof. agree c_determinant_mat3. Qed.
Lemma so_determinant_mat3 : sound determinant_mat3.
Proof. sound c_determinant_mat3. Qed.
Lemma ag_inverse_mat4 : agrees inverse_mat4.
Proof. agree c_inverse_mat4. Qed.
Lemma so_inverse_mat4 : sound inverse_mat4.
Proof. sound c_inverse_mat4. Qed.
Lemma ag_inverseTranspose_mat2 : agrees inverseTranspose_mat2.
Proof. agree c_inverseTranspose_mat2. Qed.
Lemma so_inverseTranspose_mat2 : sound inverseTranspose_mat2.
Proof. sound c_inverseTranspose_mat2. Qed.
Lemma ag_adjugateTranspose_mat3 : agrees adjugateTranspose_mat3.
Proof. agree c_adjugateTranspose_mat3. Qed.
Lemma so_adjugateTranspose_mat3 : sound adjugateTranspose_mat3.
Proof. sound c_adjugateTranspose_mat3. Qed.
Lemma ag_scale_mat4_vec3 : agrees scale_mat4_vec3.
Proof. agree c_scale_mat4_vec3. Qed.
Lemma so_scale_mat4_vec3 : sound scale_mat4_vec3.
Proof. sound c_scale_mat4_vec3. Qed.
Lemma ag_orthoLH_ZO_float_float_float_float_float_float : agrees orthoLH_ZO_float_float_float_float_float_float.
Proof. agree c_orthoLH_ZO_float_float_float_float_float_float. Qed.
Lemma so_orthoLH_ZO_float_float_float_float_float_float : sound orthoLH_ZO_float_float_float_float_float_float.
Proof. sound c_orthoLH_ZO_float_float_float_float_float_float. Qed.
Lemma ag_perspectiveRH_ZO_float_float_float_float : agrees perspectiveRH_ZO_float_float_float_float.
Proof. agree c_perspectiveRH_ZO_float_float_float_float. Qed.
Lemma so_perspectiveRH_ZO_float_float_float_float : sound perspectiveRH_ZO_float_float_float_float.
Proof. sound c_perspectiveRH_ZO_float_float_float_float. Qed.
Lemma ag_eulerAngles_quat : agrees eulerAngles_quat.
Proof. agree c_eulerAngles_quat. Qed.
Lemma so_eulerAngles_quat : sound eulerAngles_quat.
Proof. sound c_eulerAngles_quat. Qed.
Lemma ag_mat3_cast_quat : agrees mat3_cast_quat.
Proof. agree c_mat3_cast_quat. Qed.
Lemma so_mat3_cast_quat : sound mat3_cast_quat.
Proof. sound c_mat3_cast_quat. Qed.
Lemma ag_quatLookAtLH_vec3_vec3 : agrees quatLookAtLH_vec3_vec3.
Proof. agree c_quatLookAtLH_vec3_vec3. Qed.
Lemma so_quatLookAtLH_vec3_vec3 : sound quatLookAtLH_vec3_vec3.
Proof. sound c_quatLookAtLH_vec3_vec3. Qed.
Lemma ag_lerp_quat_quat_float : agrees lerp_quat_quat_float.
Proof. agree c_lerp_quat_quat_float. Qed.
Lemma so_lerp_quat_quat_float : sound lerp_quat_quat_float.
Proof. sound c_lerp_quat_quat_float. Qed.
Lemma ag_angle_quat : agrees angle_quat.
Proof. agree c_angle_quat. Qed.
Lemma so_angle_quat : sound angle_quat.
Proof. sound c_angle_quat. Qed.
