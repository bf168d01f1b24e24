(** * Proofs: the source of each function and its model agree (part 1 of 4) *)
From Coq Require Import ZArith NArith Bool List String.
From Verif Require Import Scalar Outcome Types Int32 Cpp CppNames CppCode1 CppCode2 CppCode3 CppProgram CppModel SpecCpp CppTac.
Import ListNotations.
Lemma ag_vec2__default : agrees vec2__default.
Proof. agree c_vec2__default. Qed.
Lemma so_vec2__default : sound vec2__default.
Proof. sound c_vec2__default. Qed.
Lemma ag_vec2__float_float : agrees vec2__float_float.
Proof. agree c_vec2__float_float. Qed.
Lemma so_vec2__float_float : sound vec2__float_float.
Proof. sound c_vec2__float_float. Qed.
Lemma ag_op_add_float_vec2 : agrees op_add_float_vec2.
Proof. agree c_op_add_float_vec2. Qed.
Lemma so_op_add_float_vec2 : sound op_add_float_vec2.
Proof. sound c_op_add_float_vec2. Qed.
Lemma ag_op_mul_vec2_vec2 : agrees op_mul_vec2_vec2.
Proof. agree c_op_mul_vec2_vec2. Qed.
Lemma so_op_mul_vec2_vec2 : sound op_mul_vec2_vec2.
Proof. sound c_op_mul_vec2_vec2. Qed.
Lemma ag_op_div_vec2_float : agrees op_div_vec2_float.
Proof. agree c_op_div_vec2_float. Qed.
Lemma so_op_div_vec2_float : sound op_div_vec2_float.
Proof. sound c_op_div_vec2_float. Qed.
Lemma ag_vec2__op_sub_assign_vec2 : agrees vec2__op_sub_assign_vec2.
Proof. agree c_vec2__op_sub_assign_vec2. Qed.
Lemma so_vec2__op_sub_assign_vec2 : sound vec2__op_sub_assign_vec2.
Proof. sound c_vec2__op_sub_assign_vec2. Qed.
Lemma ag_vec2__op_div_assign_vec2 : agrees vec2__op_div_assign_vec2.
Proof. agree c_vec2__op_div_assign_vec2. Qed.
Lemma so_vec2__op_div_assign_vec2 : sound vec2__op_div_assign_vec2.
Proof. sound c_vec2__op_div_assign_vec2. Qed.
Lemma ag_vec2__preinc : agrees vec2__preinc.
Proof. agree c_vec2__preinc. Qed.
Lemma so_vec2__preinc : sound vec2__preinc.
Proof. sound c_vec2__preinc. Qed.
Lemma ag_op_eq_vec2_vec2 : agrees op_eq_vec2_vec2.
Proof. agree c_op_eq_vec2_vec2. Qed.
Lemma so_op_eq_vec2_vec2 : sound op_eq_vec2_vec2.
Proof. sound c_op_eq_vec2_vec2. Qed.
Lemma ag_vec3__default : agrees vec3__default.
Proof. agree c_vec3__default. Qed.
Lemma so_vec3__default : sound vec3__default.
Proof. sound c_vec3__default. Qed.
Lemma ag_vec3__float_float_float : agrees vec3__float_float_float.
Proof. agree c_vec3__float_float_float. Qed.
Lemma so_vec3__float_float_float : sound vec3__float_float_float.
Proof. sound c_vec3__float_float_float. Qed.
Lemma ag_op_add_vec3_vec3 : agrees op_add_vec3_vec3.
Proof. agree c_op_add_vec3_vec3. Qed.
Lemma so_op_add_vec3_vec3 : sound op_add_vec3_vec3.
Proof. sound c_op_add_vec3_vec3. Qed.
Lemma ag_op_sub_vec3_float : agrees op_sub_vec3_float.
Proof. agree c_op_sub_vec3_float. Qed.
Lemma so_op_sub_vec3_float : sound op_sub_vec3_float.
Proof. sound c_op_sub_vec3_float. Qed.
Lemma ag_op_mul_float_vec3 : agrees op_mul_float_vec3.
Proof. agree c_op_mul_float_vec3. Qed.
Lemma so_op_mul_float_vec3 : sound op_mul_float_vec3.
Proof. sound c_op_mul_float_vec3. Qed.
Lemma ag_vec3__op_add_assign_vec3 : agrees vec3__op_add_assign_vec3.
Proof. agree c_vec3__op_add_assign_vec3. Qed.
Lemma so_vec3__op_add_assign_vec3 : sound vec3__op_add_assign_vec3.
Proof. sound c_vec3__op_add_assign_vec3. Qed.
Lemma ag_vec3__op_mul_assign_vec3 : agrees vec3__op_mul_assign_vec3.
Proof. agree c_vec3__op_mul_assign_vec3. Qed.
Lemma so_vec3__op_mul_assign_vec3 : sound vec3__op_mul_assign_vec3.
Proof. sound c_vec3__op_mul_assign_vec3. Qed.
Lemma ag_op_sub_vec3 : agrees op_sub_vec3.
Proof. agree c_op_sub_vec3. Qed.
Lemma so_op_sub_vec3 : sound op_sub_vec3.
Proof. sound c_op_sub_vec3. Qed.
Lemma ag_vec3__predec : agrees vec3__predec.
Proof. agree c_vec3__predec. Qed.
Lemma so_vec3__predec : sound vec3__predec.
Proof. sound c_vec3__predec. Qed.
Lemma ag_vec3__index : agrees vec3__index.
Proof. agree_index c_vec3__index. Qed.
Lemma so_vec3__index : sound vec3__index.
Proof. agree_index c_vec3__index. Qed.
Lemma ag_vec4__float : agrees vec4__float.
Proof. agree c_vec4__float. Qed.
Lemma so_vec4__float : sound vec4__float.
Proof. sound c_vec4__float. Qed.
Lemma ag_vec4__float_vec3 : agrees vec4__float_vec3.
Proof. agree c_vec4__float_vec3. Qed.
Lemma so_vec4__float_vec3 : sound vec4__float_vec3.
Proof. sound c_vec4__float_vec3. Qed.
Lemma ag_vec4__float_float_vec2 : agrees vec4__float_float_vec2.
Proof. agree c_vec4__float_float_vec2. Qed.
Lemma so_vec4__float_float_vec2 : sound vec4__float_float_vec2.
Proof. sound c_vec4__float_float_vec2. Qed.
Lemma ag_op_add_float_vec4 : agrees op_add_float_vec4.
Proof. agree c_op_add_float_vec4. Qed.
Lemma so_op_add_float_vec4 : sound op_add_float_vec4.
Proof. sound c_op_add_float_vec4. Qed.
Lemma ag_op_mul_vec4_vec4 : agrees op_mul_vec4_vec4.
Proof. agree c_op_mul_vec4_vec4. Qed.
Lemma so_op_mul_vec4_vec4 : sound op_mul_vec4_vec4.
Proof. sound c_op_mul_vec4_vec4. Qed.
Lemma ag_op_div_vec4_float : agrees op_div_vec4_float.
Proof. agree c_op_div_vec4_float. Qed.
Lemma so_op_div_vec4_float : sound op_div_vec4_float.
Proof. sound c_op_div_vec4_float. Qed.
Lemma ag_vec4__op_sub_assign_vec4 : agrees vec4__op_sub_assign_vec4.
Proof. agree c_vec4__op_sub_assign_vec4. Qed.
Lemma so_vec4__op_sub_assign_vec4 : sound vec4__op_sub_assign_vec4.
Proof. sound c_vec4__op_sub_assign_vec4. Qed.
Lemma ag_vec4__op_div_assign_vec4 : agrees vec4__op_div_assign_vec4.
Proof. agree c_vec4__op_div_assign_vec4. Qed.
Lemma so_vec4__op_div_assign_vec4 : sound vec4__op_div_assign_vec4.
Proof. sound c_vec4__op_div_assign_vec4. Qed.
Lemma ag_vec4__preinc : agrees vec4__preinc.
Proof. agree c_vec4__preinc. Qed.
Lemma so_vec4__preinc : sound vec4__preinc.
Proof. sound c_vec4__preinc. Qed.
Lemma ag_op_eq_vec4_vec4 : agrees op_eq_vec4_vec4.
Proof. agree c_op_eq_vec4_vec4. Qed.
Lemma so_op_eq_vec4_vec4 : sound op_eq_vec4_vec4.
Proof. sound c_op_eq_vec4_vec4. Qed.
Lemma ag_ivec2__default : agrees ivec2__default.
Proof. agree c_ivec2__default. Qed.
Lemma so_ivec2__default : sound ivec2__default.
Proof. sound c_ivec2__default. Qed.
Lemma ag_op_add_ivec2 : agrees op_add_ivec2.
Proof. agree c_op_add_ivec2. Qed.
Lemma so_op_add_ivec2 : sound op_add_ivec2.
Proof. sound c_op_add_ivec2. Qed.
Lemma ag_op_add_ivec2_int : agrees op_add_ivec2_int.
Proof. agree c_op_add_ivec2_int. Qed.
Lemma so_op_add_ivec2_int : sound op_add_ivec2_int.
Proof. sound c_op_add_ivec2_int. Qed.
Lemma ag_op_sub_int_ivec2 : agrees op_sub_int_ivec2.
Proof. agree c_op_sub_int_ivec2. Qed.
Lemma so_op_sub_int_ivec2 : sound op_sub_int_ivec2.
Proof. sound c_op_sub_int_ivec2. Qed.
Lemma ag_op_div_ivec2_ivec2 : agrees op_div_ivec2_ivec2.
Proof. agree c_op_div_ivec2_ivec2. Qed.
Lemma so_op_div_ivec2_ivec2 : sound op_div_ivec2_ivec2.
Proof. sound c_op_div_ivec2_ivec2. Qed.
Lemma ag_op_rem_ivec2_int : agrees op_rem_ivec2_int.
Proof. agree c_op_rem_ivec2_int. Qed.
Lemma so_op_rem_ivec2_int : sound op_rem_ivec2_int.
Proof. sound c_op_rem_ivec2_int. Qed.
Lemma ag_op_or_int_ivec2 : agrees op_or_int_ivec2.
Proof. agree c_op_or_int_ivec2. Qed.
Lemma so_op_or_int_ivec2 : sound op_or_int_ivec2.
Proof. sound c_op_or_int_ivec2. Qed.
Lemma ag_op_xor_ivec2_ivec2 : agrees op_xor_ivec2_ivec2.
Proof. agree c_op_xor_ivec2_ivec2. Qed.
Lemma so_op_xor_ivec2_ivec2 : sound op_xor_ivec2_ivec2.
Proof. sound c_op_xor_ivec2_ivec2. Qed.
Lemma ag_op_shr_ivec2_int : agrees op_shr_ivec2_int.
Proof. agree c_op_shr_ivec2_int. Qed.
Lemma so_op_shr_ivec2_int : sound op_shr_ivec2_int.
Proof. sound c_op_shr_ivec2_int. Qed.
Lemma ag_op_shl_int_ivec2 : agrees op_shl_int_ivec2.
Proof. agree c_op_shl_int_ivec2. Qed.
Lemma so_op_shl_int_ivec2 : sound op_shl_int_ivec2.
Proof. sound c_op_shl_int_ivec2. Qed.
Lemma ag_ivec2__op_sub_assign_int : agrees ivec2__op_sub_assign_int.
Proof. agree c_ivec2__op_sub_assign_int. Qed.
Lemma so_ivec2__op_sub_assign_int : sound ivec2__op_sub_assign_int.
Proof. sound c_ivec2__op_sub_assign_int. Qed.
Lemma ag_ivec2__op_div_assign_int : agrees ivec2__op_div_assign_int.
Proof. agree c_ivec2__op_div_assign_int. Qed.
Lemma so_ivec2__op_div_assign_int : sound ivec2__op_div_assign_int.
Proof. sound c_ivec2__op_div_assign_int. Qed.
Lemma ag_ivec2__op_or_assign_int : agrees ivec2__op_or_assign_int.
Proof. agree c_ivec2__op_or_assign_int. Qed.
Lemma so_ivec2__op_or_assign_int : sound ivec2__op_or_assign_int.
Proof. sound c_ivec2__op_or_assign_int. Qed.
Lemma ag_ivec2__op_xor_assign_int : agrees ivec2__op_xor_assign_int.
Proof. agree c_ivec2__op_xor_assign_int. Qed.
Lemma so_ivec2__op_xor_assign_int : sound ivec2__op_xor_assign_int.
Proof. sound c_ivec2__op_xor_assign_int. Qed.
Lemma ag_ivec2__op_shl_assign_int : agrees ivec2__op_shl_assign_int.
Proof. agree c_ivec2__op_shl_assign_int. Qed.
Lemma so_ivec2__op_shl_assign_int : sound ivec2__op_shl_assign_int.
Proof. sound c_ivec2__op_shl_assign_int. Qed.
Lemma ag_op_le_ivec2_ivec2 : agrees op_le_ivec2_ivec2.
Proof. agree c_op_le_ivec2_ivec2. Qed.
Lemma so_op_le_ivec2_ivec2 : sound op_le_ivec2_ivec2.
Proof. sound c_op_le_ivec2_ivec2. Qed.
Lemma ag_ivec2__index_const : agrees ivec2__index_const.
Proof. agree_index c_ivec2__index_const. Qed.
Lemma so_ivec2__index_const : sound ivec2__index_const.
Proof. agree_index c_ivec2__index_const. Qed.
Lemma ag_ivec2__predec : agrees ivec2__predec.
Proof. agree c_ivec2__predec. Qed.
Lemma so_ivec2__predec : sound ivec2__predec.
Proof. sound c_ivec2__predec. Qed.
Lemma ag_ivec3__int : agrees ivec3__int.
Proof. agree c_ivec3__int. Qed.
Lemma so_ivec3__int : sound ivec3__int.
Proof. sound c_ivec3__int. Qed.
Lemma ag_make_ivec3_int_ptr : agrees make_ivec3_int_ptr.
Proof. start_ptr c_make_ivec3_int_ptr inv_ptr_int dPI_map 3. Qed.
Lemma so_make_ivec3_int_ptr : sound make_ivec3_int_ptr.
Proof. start_ptr c_make_ivec3_int_ptr inv_ptr_int dPI_map 3. Qed.
Lemma ag_op_sub_ivec3_ivec3 : agrees op_sub_ivec3_ivec3.
Proof. agree c_op_sub_ivec3_ivec3. Qed.
Lemma so_op_sub_ivec3_ivec3 : sound op_sub_ivec3_ivec3.
Proof. sound c_op_sub_ivec3_ivec3. Qed.
Lemma ag_op_mul_ivec3_int : agrees op_mul_ivec3_int.
Proof. agree c_op_mul_ivec3_int. Qed.
Lemma so_op_mul_ivec3_int : sound op_mul_ivec3_int.
Proof. sound c_op_mul_ivec3_int. Qed.
Lemma ag_op_div_int_ivec3 : agrees op_div_int_ivec3.
Proof. agree c_op_div_int_ivec3. Qed.
Lemma so_op_div_int_ivec3 : sound op_div_int_ivec3.
Proof. sound c_op_div_int_ivec3. Qed.
Lemma ag_op_or_ivec3_ivec3 : agrees op_or_ivec3_ivec3.
Proof. agree c_op_or_ivec3_ivec3. Qed.
Lemma so_op_or_ivec3_ivec3 : sound op_or_ivec3_ivec3.
Proof. sound c_op_or_ivec3_ivec3. Qed.
Lemma ag_op_and_ivec3_int : agrees op_and_ivec3_int.
Proof. agree c_op_and_ivec3_int. Qed.
Lemma so_op_and_ivec3_int : sound op_and_ivec3_int.
Proof. sound c_op_and_ivec3_int. Qed.
Lemma ag_op_xor_int_ivec3 : agrees op_xor_int_ivec3.
Proof. agree c_op_xor_int_ivec3. Qed.
Lemma so_op_xor_int_ivec3 : sound op_xor_int_ivec3.
Proof. sound c_op_xor_int_ivec3. Qed.
Lemma ag_op_shl_ivec3_ivec3 : agrees op_shl_ivec3_ivec3.
Proof. agree c_op_shl_ivec3_ivec3. Qed.
Lemma so_op_shl_ivec3_ivec3 : sound op_shl_ivec3_ivec3.
Proof. sound c_op_shl_ivec3_ivec3. Qed.
Lemma ag_ivec3__op_add_assign_int : agrees ivec3__op_add_assign_int.
Proof. agree c_ivec3__op_add_assign_int. Qed.
Lemma so_ivec3__op_add_assign_int : sound ivec3__op_add_assign_int.
Proof. sound c_ivec3__op_add_assign_int. Qed.
Lemma ag_ivec3__op_mul_assign_int : agrees ivec3__op_mul_assign_int.
Proof. agree c_ivec3__op_mul_assign_int. Qed.
Lemma so_ivec3__op_mul_assign_int : sound ivec3__op_mul_assign_int.
Proof. sound c_ivec3__op_mul_assign_int. Qed.
Lemma ag_ivec3__op_rem_assign_int : agrees ivec3__op_rem_assign_int.
Proof. agree c_ivec3__op_rem_assign_int. Qed.
Lemma so_ivec3__op_rem_assign_int : sound ivec3__op_rem_assign_int.
Proof. sound c_ivec3__op_rem_assign_int. Qed.
Lemma ag_ivec3__op_and_assign_int : agrees ivec3__op_and_assign_int.
Proof. agree c_ivec3__op_and_assign_int. Qed.
Lemma so_ivec3__op_and_assign_int : sound ivec3__op_and_assign_int.
Proof. sound c_ivec3__op_and_assign_int. Qed.
Lemma ag_ivec3__op_shr_assign_int : agrees ivec3__op_shr_assign_int.
Proof. agree c_ivec3__op_shr_assign_int. Qed.
Lemma so_ivec3__op_shr_assign_int : sound ivec3__op_shr_assign_int.
Proof. sound c_ivec3__op_shr_assign_int. Qed.
Lemma ag_op_add_ivec3 : agrees op_add_ivec3.
Proof. agree c_op_add_ivec3. Qed.
Lemma so_op_add_ivec3 : sound op_add_ivec3.
Proof. sound c_op_add_ivec3. Qed.
Lemma ag_ivec3__index_const : agrees ivec3__index_const.
Proof. agree_index c_ivec3__index_const. Qed.
Lemma so_ivec3__index_const : sound ivec3__index_const.
Proof. agree_index c_ivec3__index_const. Qed.
Lemma ag_ivec3__postdec : agrees ivec3__postdec.
Proof. agree c_ivec3__postdec. Qed.
Lemma so_ivec3__postdec : sound ivec3__postdec.
Proof. sound c_ivec3__postdec. Qed.
Lemma ag_op_gt_ivec3_ivec3 : agrees op_gt_ivec3_ivec3.
Proof. agree c_op_gt_ivec3_ivec3. Qed.
Lemma so_op_gt_ivec3_ivec3 : sound op_gt_ivec3_ivec3.
Proof. sound c_op_gt_ivec3_ivec3. Qed.
Lemma ag_ivec4__int : agrees ivec4__int.
Proof. agree c_ivec4__int. Qed.
Lemma so_ivec4__int : sound ivec4__int.
Proof. sound c_ivec4__int. Qed.
Lemma ag_ivec4__ivec2_ivec2 : agrees ivec4__ivec2_ivec2.
Proof. agree c_ivec4__ivec2_ivec2. Qed.
Lemma so_ivec4__ivec2_ivec2 : sound ivec4__ivec2_ivec2.
Proof. sound c_ivec4__ivec2_ivec2. Qed.
Lemma ag_make_ivec4_int_ptr : agrees make_ivec4_int_ptr.
Proof. start_ptr c_make_ivec4_int_ptr inv_ptr_int dPI_map 4. Qed.
Lemma so_make_ivec4_int_ptr : sound make_ivec4_int_ptr.
Proof. start_ptr c_make_ivec4_int_ptr inv_ptr_int dPI_map 4. Qed.
Lemma ag_op_sub_ivec4_ivec4 : agrees op_sub_ivec4_ivec4.
Proof. agree c_op_sub_ivec4_ivec4. Qed.
Lemma so_op_sub_ivec4_ivec4 : sound op_sub_ivec4_ivec4.
Proof. sound c_op_sub_ivec4_ivec4. Qed.
Lemma ag_op_mul_ivec4_int : agrees op_mul_ivec4_int.
Proof. agree c_op_mul_ivec4_int. Qed.
Lemma so_op_mul_ivec4_int : sound op_mul_ivec4_int.
Proof. sound c_op_mul_ivec4_int. Qed.
Lemma ag_op_div_int_ivec4 : agrees op_div_int_ivec4.
Proof. agree c_op_div_int_ivec4. Qed.
Lemma so_op_div_int_ivec4 : sound op_div_int_ivec4.
Proof. sound c_op_div_int_ivec4. Qed.
Lemma ag_ivec4__op_sub_assign_int : agrees ivec4__op_sub_assign_int.
Proof. agree c_ivec4__op_sub_assign_int. Qed.
Lemma so_ivec4__op_sub_assign_int : sound ivec4__op_sub_assign_int.
Proof. sound c_ivec4__op_sub_assign_int. Qed.
Lemma ag_ivec4__op_div_assign_int : agrees ivec4__op_div_assign_int.
Proof. agree c_ivec4__op_div_assign_int. Qed.
Lemma so_ivec4__op_div_assign_int : sound ivec4__op_div_assign_int.
Proof. sound c_ivec4__op_div_assign_int. Qed.
Lemma ag_ivec4__postinc : agrees ivec4__postinc.
Proof. agree c_ivec4__postinc. Qed.
Lemma so_ivec4__postinc : sound ivec4__postinc.
Proof. sound c_ivec4__postinc. Qed.
Lemma ag_op_ne_ivec4_ivec4 : agrees op_ne_ivec4_ivec4.
Proof. agree c_op_ne_ivec4_ivec4. Qed.
Lemma so_op_ne_ivec4_ivec4 : sound op_ne_ivec4_ivec4.
Proof. sound c_op_ne_ivec4_ivec4. Qed.
Lemma ag_op_ge_ivec4_ivec4 : agrees op_ge_ivec4_ivec4.
Proof. agree c_op_ge_ivec4_ivec4. Qed.
Lemma so_op_ge_ivec4_ivec4 : sound op_ge_ivec4_ivec4.
Proof. sound c_op_ge_ivec4_ivec4. Qed.
Lemma ag_bvec2__default : agrees bvec2__default.
Proof. agree c_bvec2__default. Qed.
Lemma so_bvec2__default : sound bvec2__default.
Proof. sound c_bvec2__default. Qed.
Lemma ag_op_land_bvec2_bool : agrees op_land_bvec2_bool.
Proof. agree c_op_land_bvec2_bool. Qed.
Lemma so_op_land_bvec2_bool : sound op_land_bvec2_bool.
Proof. sound c_op_land_bvec2_bool. Qed.
Lemma ag_op_lor_bool_bvec2 : agrees op_lor_bool_bvec2.
Proof. agree c_op_lor_bool_bvec2. Qed.
Lemma so_op_lor_bool_bvec2 : sound op_lor_bool_bvec2.
Proof. sound c_op_lor_bool_bvec2. Qed.
Lemma ag_op_not_bvec2 : agrees op_not_bvec2.
Proof. agree c_op_not_bvec2. Qed.
Lemma so_op_not_bvec2 : sound op_not_bvec2.
Proof. sound c_op_not_bvec2. Qed.
Lemma ag_bvec2__op_and_assign_bvec2 : agrees bvec2__op_and_assign_bvec2.
Proof. agree c_bvec2__op_and_assign_bvec2. Qed.
Lemma so_bvec2__op_and_assign_bvec2 : sound bvec2__op_and_assign_bvec2.
Proof. sound c_bvec2__op_and_assign_bvec2. Qed.
Lemma ag_op_ne_bvec2_bvec2 : agrees op_ne_bvec2_bvec2.
Proof. agree c_op_ne_bvec2_bvec2. Qed.
Lemma so_op_ne_bvec2_bvec2 : sound op_ne_bvec2_bvec2.
Proof. sound c_op_ne_bvec2_bvec2. Qed.
Lemma ag_bvec3__default : agrees bvec3__default.
Proof. agree c_bvec3__default. Qed.
Lemma so_bvec3__default : sound bvec3__default.
Proof. sound c_bvec3__default. Qed.
Lemma ag_bvec3__bool_bvec2 : agrees bvec3__bool_bvec2.
Proof. agree c_bvec3__bool_bvec2. Qed.
Lemma so_bvec3__bool_bvec2 : sound bvec3__bool_bvec2.
Proof. sound c_bvec3__bool_bvec2. Qed.
Lemma ag_op_lor_bvec3_bvec3 : agrees op_lor_bvec3_bvec3.
Proof. agree c_op_lor_bvec3_bvec3. Qed.
Lemma so_op_lor_bvec3_bvec3 : sound op_lor_bvec3_bvec3.
Proof. sound c_op_lor_bvec3_bvec3. Qed.
Lemma ag_op_xor_bvec3_bool : agrees op_xor_bvec3_bool.
Proof. agree c_op_xor_bvec3_bool. Qed.
Lemma so_op_xor_bvec3_bool : sound op_xor_bvec3_bool.
Proof. sound c_op_xor_bvec3_bool. Qed.
Lemma ag_bvec3__op_or_assign_bool : agrees bvec3__op_or_assign_bool.
Proof. agree c_bvec3__op_or_assign_bool. Qed.
Lemma so_bvec3__op_or_assign_bool : sound bvec3__op_or_assign_bool.
Proof. sound c_bvec3__op_or_assign_bool. Qed.
Lemma ag_bvec3__op_xor_assign_bvec3 : agrees bvec3__op_xor_assign_bvec3.
Proof. agree c_bvec3__op_xor_assign_bvec3. Qed.
Lemma so_bvec3__op_xor_assign_bvec3 : sound bvec3__op_xor_assign_bvec3.
Proof. sound c_bvec3__op_xor_assign_bvec3. Qed.
Lemma ag_bvec3__index_const : agrees bvec3__index_const.
Proof. agree_index c_bvec3__index_const. Qed.
Lemma so_bvec3__index_const : sound bvec3__index_const.
Proof. agree_index c_bvec3__index_const. Qed.
Lemma ag_bvec4__bool_bool_bool_bool : agrees bvec4__bool_bool_bool_bool.
Proof. agree c_bvec4__bool_bool_bool_bool. Qed.
Lemma so_bvec4__bool_bool_bool_bool : sound bvec4__bool_bool_bool_bool.
Proof. sound c_bvec4__bool_bool_bool_bool. Qed.
Lemma ag_bvec4__bvec2_bool_bool : agrees bvec4__bvec2_bool_bool.
Proof. agree c_bvec4__bvec2_bool_bool. Qed.
Lemma so_bvec4__bvec2_bool_bool : sound bvec4__bvec2_bool_bool.
Proof. sound c_bvec4__bvec2_bool_bool. Qed.
Lemma ag_op_land_bvec4_bool : agrees op_land_bvec4_bool.
Proof. agree c_op_land_bvec4_bool. Qed.
Lemma so_op_land_bvec4_bool : sound op_land_bvec4_bool.
Proof. sound c_op_land_bvec4_bool. Qed.
Lemma ag_op_lor_bool_bvec4 : agrees op_lor_bool_bvec4.
Proof. agree c_op_lor_bool_bvec4. Qed.
Lemma so_op_lor_bool_bvec4 : sound op_lor_bool_bvec4.
Proof. sound c_op_lor_bool_bvec4. Qed.
Lemma ag_op_not_bvec4 : agrees op_not_bvec4.
Proof. agree c_op_not_bvec4. Qed.
Lemma so_op_not_bvec4 : sound op_not_bvec4.
Proof. sound c_op_not_bvec4. Qed.
Lemma ag_bvec4__op_or_assign_bool : agrees bvec4__op_or_assign_bool.
Proof. agree c_bvec4__op_or_assign_bool. Qed.
Lemma so_bvec4__op_or_assign_bool : sound bvec4__op_or_assign_bool.
Proof. sound c_bvec4__op_or_assign_bool. Qed.
Lemma ag_bvec4__op_xor_assign_bvec4 : agrees bvec4__op_xor_assign_bvec4.
Proof. agree c_bvec4__op_xor_assign_bvec4. Qed.
Lemma so_bvec4__op_xor_assign_bvec4 : sound bvec4__op_xor_assign_bvec4.
Proof. sound c_bvec4__op_xor_assign_bvec4. Qed.
Lemma ag_mat2__default : agrees mat2__default.
Proof. agree c_mat2__default. Qed.
Lemma so_mat2__default : sound mat2__default.
Proof. sound c_mat2__default. Qed.
Lemma ag_mat2__vec2_vec2 : agrees mat2__vec2_vec2.
Proof. agree c_mat2__vec2_vec2. Qed.
Lemma so_mat2__vec2_vec2 : sound mat2__vec2_vec2.
Proof. sound c_mat2__vec2_vec2. Qed.
Lemma ag_op_sub_mat2_mat2 : agrees op_sub_mat2_mat2.
Proof. agree c_op_sub_mat2_mat2. Qed.
Lemma so_op_sub_mat2_mat2 : sound op_sub_mat2_mat2.
Proof. sound c_op_sub_mat2_mat2. Qed.
Lemma ag_op_div_mat2_mat2 : agrees op_div_mat2_mat2.
Proof. agree c_op_div_mat2_mat2. Qed.
Lemma so_op_div_mat2_mat2 : sound op_div_mat2_mat2.
Proof. sound c_op_div_mat2_mat2. Qed.
Lemma ag_op_div_float_mat2 : agrees op_div_float_mat2.
Proof. agree c_op_div_float_mat2. Qed.
Lemma so_op_div_float_mat2 : sound op_div_float_mat2.
Proof. sound c_op_div_float_mat2. Qed.
Lemma ag_op_div_vec2_mat2 : agrees op_div_vec2_mat2.
Proof. agree c_op_div_vec2_mat2. Qed.
Lemma so_op_div_vec2_mat2 : sound op_div_vec2_mat2.
Proof. sound c_op_div_vec2_mat2. Qed.
Lemma ag_mat2__op_div_assign_mat2 : agrees mat2__op_div_assign_mat2.
Proof. agree c_mat2__op_div_assign_mat2. Qed.
Lemma so_mat2__op_div_assign_mat2 : sound mat2__op_div_assign_mat2.
Proof. sound c_mat2__op_div_assign_mat2. Qed.
Lemma ag_mat3__default : agrees mat3__default.
Proof. agree c_mat3__default. Qed.
Lemma so_mat3__default : sound mat3__default.
Proof. sound c_mat3__default. Qed.
Lemma ag_mat3__to_mat2 : agrees mat3__to_mat2.
Proof. agree c_mat3__to_mat2. Qed.
Lemma so_mat3__to_mat2 : sound mat3__to_mat2.
Proof. sound c_mat3__to_mat2. Qed.
Lemma ag_op_sub_mat3_mat3 : agrees op_sub_mat3_mat3.
Proof. agree c_op_sub_mat3_mat3. Qed.
Lemma so_op_sub_mat3_mat3 : sound op_sub_mat3_mat3.
Proof. sound c_op_sub_mat3_mat3. Qed.
Lemma ag_op_div_mat3_mat3 : agrees op_div_mat3_mat3.
Proof. agree c_op_div_mat3_mat3. Qed.
Lemma so_op_div_mat3_mat3 : sound op_div_mat3_mat3.
Proof. sound c_op_div_mat3_mat3. Qed.
Lemma ag_op_div_float_mat3 : agrees op_div_float_mat3.
Proof. agree c_op_div_float_mat3. Qed.
Lemma so_op_div_float_mat3 : sound op_div_float_mat3.
Proof. sound c_op_div_float_mat3. Qed.
Lemma ag_mat3__op_sub_assign_mat3 : agrees mat3__op_sub_assign_mat3.
Proof. agree c_mat3__op_sub_assign_mat3. Qed.
Lemma so_mat3__op_sub_assign_mat3 : sound mat3__op_sub_assign_mat3.
Proof. sound c_mat3__op_sub_assign_mat3. Qed.
Lemma ag_op_mul_vec3_mat3 : agrees op_mul_vec3_mat3.
Proof. agree c_op_mul_vec3_mat3. Qed.
Lemma so_op_mul_vec3_mat3 : sound op_mul_vec3_mat3.
Proof. sound c_op_mul_vec3_mat3. Qed.
Lemma ag_op_ne_mat3_mat3 : agrees op_ne_mat3_mat3.
Proof. agree c_op_ne_mat3_mat3. Qed.
Lemma so_op_ne_mat3_mat3 : sound op_ne_mat3_mat3.
Proof. sound c_op_ne_mat3_mat3. Qed.
Lemma ag_mat4__float : agrees mat4__float.
Proof. agree c_mat4__float. Qed.
Lemma so_mat4__float : sound mat4__float.
Proof. sound c_mat4__float. Qed.
Lemma ag_mat4__to_mat3 : agrees mat4__to_mat3.
Proof. agree c_mat4__to_mat3. Qed.
Lemma so_mat4__to_mat3 : sound mat4__to_mat3.
Proof. sound c_mat4__to_mat3. Qed.
Lemma ag_op_add_mat4 : agrees op_add_mat4.
Proof. agree c_op_add_mat4. Qed.
Lemma so_op_add_mat4 : sound op_add_mat4.
Proof. sound c_op_add_mat4. Qed.
Lemma ag_op_div_mat4_float : agrees op_div_mat4_float.
Proof. agree c_op_div_mat4_float. Qed.
Lemma so_op_div_mat4_float : sound op_div_mat4_float.
Proof. sound c_op_div_mat4_float. Qed.
Lemma ag_mat4__op_sub_assign_mat4 : agrees mat4__op_sub_assign_mat4.
Proof. agree c_mat4__op_sub_assign_mat4. Qed.
Lemma so_mat4__op_sub_assign_mat4 : sound mat4__op_sub_assign_mat4.
Proof. sound c_mat4__op_sub_assign_mat4. Qed.
Lemma ag_mat4__index_const : agrees mat4__index_const.
Proof. agree_index c_mat4__index_const. Qed.
Lemma so_mat4__index_const : sound mat4__index_const.
Proof. agree_index c_mat4__index_const. Qed.
Lemma ag_op_div_vec4_mat4 : agrees op_div_vec4_mat4.
Proof. agree c_op_div_vec4_mat4. Qed.
Lemma so_op_div_vec4_mat4 : sound op_div_vec4_mat4.
Proof. sound c_op_div_vec4_mat4. Qed.
Lemma ag_quat__default : agrees quat__default.
Proof. agree c_quat__default. Qed.
Lemma so_quat__default : sound quat__default.
Proof. sound c_quat__default. Qed.
Lemma ag_quat__vec3_float : agrees quat__vec3_float.
Proof. agree c_quat__vec3_float. Qed.
Lemma so_quat__vec3_float : sound quat__vec3_float.
Proof. sound c_quat__vec3_float. Qed.
Lemma ag_make_quat_float_ptr : agrees make_quat_float_ptr.
Proof. start_ptr c_make_quat_float_ptr inv_ptr_float dPF_map 4. Qed.
Lemma so_make_quat_float_ptr : sound make_quat_float_ptr.
Proof. start_ptr c_make_quat_float_ptr inv_ptr_float dPF_map 4. Qed.
Lemma ag_quat__op_sub_assign_quat : agrees quat__op_sub_assign_quat.
Proof. agree c_quat__op_sub_assign_quat. Qed.
Lemma so_quat__op_sub_assign_quat : sound quat__op_sub_assign_quat.
Proof. sound c_quat__op_sub_assign_quat. Qed.
Lemma ag_op_add_quat_quat : agrees op_add_quat_quat.
Proof. agree c_op_add_quat_quat. Qed.
Lemma so_op_add_quat_quat : sound op_add_quat_quat.
Proof. sound c_op_add_quat_quat. Qed.
Lemma ag_op_mul_quat_quat : agrees op_mul_quat_quat.
Proof. agree c_op_mul_quat_quat. Qed.
Lemma so_op_mul_quat_quat : sound op_mul_quat_quat.
Proof. sound c_op_mul_quat_quat. Qed.
Lemma ag_op_div_quat_float : agrees op_div_quat_float.
Proof. agree c_op_div_quat_float. Qed.
Lemma so_op_div_quat_float : sound op_div_quat_float.
Proof. sound c_op_div_quat_float. Qed.
Lemma ag_op_ne_quat_quat : agrees op_ne_quat_quat.
Proof. agree c_op_ne_quat_quat. Qed.
Lemma so_op_ne_quat_quat : sound op_ne_quat_quat.
Proof. sound c_op_ne_quat_quat. Qed.
Lemma ag_abs_vec4 : agrees abs_vec4.
Proof. agree c_abs_vec4. Qed.
Lemma so_abs_vec4 : sound abs_vec4.
Proof. sound c_abs_vec4. Qed.
Lemma ag_abs_ivec4 : agrees abs_ivec4.
Proof. agree c_abs_ivec4. Qed.
Lemma so_abs_ivec4 : sound abs_ivec4.
Proof. sound c_abs_ivec4. Qed.
Lemma ag_ceil_vec4 : agrees ceil_vec4.
Proof. agree c_ceil_vec4. Qed.
Lemma so_ceil_vec4 : sound ceil_vec4.
Proof. sound c_ceil_vec4. Qed.
Lemma ag_clamp_vec4_vec4_vec4 : agrees clamp_vec4_vec4_vec4.
Proof. agree c_clamp_vec4_vec4_vec4. Qed.
Lemma so_clamp_vec4_vec4_vec4 : sound clamp_vec4_vec4_vec4.
Proof. sound c_clamp_vec4_vec4_vec4. Qed.
Lemma ag_clamp_ivec4_ivec4_ivec4 : agrees clamp_ivec4_ivec4_ivec4.
Proof. agree c_clamp_ivec4_ivec4_ivec4. Qed.
Lemma so_clamp_ivec4_ivec4_ivec4 : sound clamp_ivec4_ivec4_ivec4.
Proof. sound c_clamp_ivec4_ivec4_ivec4. Qed.
Lemma ag_floor_vec4 : agrees floor_vec4.
Proof. agree c_floor_vec4. Qed.
Lemma so_floor_vec4 : sound floor_vec4.
Proof. sound c_floor_vec4. Qed.
Lemma ag_fma_vec4_vec4_vec4 : agrees fma_vec4_vec4_vec4.
Proof. agree c_fma_vec4_vec4_vec4. Qed.
Lemma so_fma_vec4_vec4_vec4 : sound fma_vec4_vec4_vec4.
Proof. sound c_fma_vec4_vec4_vec4. Qed.
Lemma ag_fract_vec4 : agrees fract_vec4.
Proof. agree c_fract_vec4. Qed.
Lemma so_fract_vec4 : sound fract_vec4.
Proof. sound c_fract_vec4. Qed.
Lemma ag_max_vec4_vec4 : agrees max_vec4_vec4.
Proof. agree c_max_vec4_vec4. Qed.
Lemma so_max_vec4_vec4 : sound max_vec4_vec4.
Proof. sound c_max_vec4_vec4. Qed.
Lemma ag_max_ivec4_ivec4 : agrees max_ivec4_ivec4.
Proof. agree c_max_ivec4_ivec4. Qed.
Lemma so_max_ivec4_ivec4 : sound max_ivec4_ivec4.
Proof. sound c_max_ivec4_ivec4. Qed.
Lemma ag_min_vec4_vec4 : agrees min_vec4_vec4.
Proof. agree c_min_vec4_vec4. Qed.
Lemma so_min_vec4_vec4 : sound min_vec4_vec4.
Proof. sound c_min_vec4_vec4. Qed.
Lemma ag_min_ivec4_ivec4 : agrees min_ivec4_ivec4.
Proof. agree c_min_ivec4_ivec4. Qed.
Lemma so_min_ivec4_ivec4 : sound min_ivec4_ivec4.
Proof. sound c_min_ivec4_ivec4. Qed.
Lemma ag_mod_vec4_vec4 : agrees mod_vec4_vec4.
Proof. agree c_mod_vec4_vec4. Qed.
Lemma so_mod_vec4_vec4 : sound mod_vec4_vec4.
Proof. sound c_mod_vec4_vec4. Qed.
Lemma ag_round_float : agrees round_float.
Proof. agree c_round_float. Qed.
Lemma so_round_float : sound round_float.
Proof. sound c_round_float. Qed.
Lemma ag_roundEven_float : agrees roundEven_float.
Proof. agree c_roundEven_float. Qed.
Lemma so_roundEven_float : sound roundEven_float.
Proof. sound c_roundEven_float. Qed.
Lemma ag_sign_float : agrees sign_float.
Proof. agree c_sign_float. Qed.
Lemma so_sign_float : sound sign_float.
Proof. sound c_sign_float. Qed.
Lemma ag_sign_int : agrees sign_int.
Proof. agree c_sign_int. Qed.
Lemma so_sign_int : sound sign_int.
Proof. sound c_sign_int. Qed.
Lemma ag_signNotZero_float : agrees signNotZero_float.
Proof. agree c_signNotZero_float. Qed.
Lemma so_signNotZero_float : sound signNotZero_float.
Proof. sound c_signNotZero_float. Qed.
Lemma ag_signNotZero_int : agrees signNotZero_int.
Proof. agree c_signNotZero_int. Qed.
Lemma so_signNotZero_int : sound signNotZero_int.
Proof. sound c_signNotZero_int. Qed.
Lemma ag_trunc_float : agrees trunc_float.
Proof. agree c_trunc_float. Qed.
Lemma so_trunc_float : sound trunc_float.
Proof. sound c_trunc_float. Qed.
Lemma ag_smoothstep_float_float_float : agrees smoothstep_float_float_float.
Proof. agree c_smoothstep_float_float_float. Qed.
Lemma so_smoothstep_float_float_float : sound smoothstep_float_float_float.
Proof. sound c_smoothstep_float_float_float. Qed.
Lemma ag_step_float_float : agrees step_float_float.
Proof. agree c_step_float_float. Qed.
Lemma so_step_float_float : sound step_float_float.
Proof. sound c_step_float_float. Qed.
Lemma ag_mix_float_float_float : agrees mix_float_float_float.
Proof. agree c_mix_float_float_float. Qed.
Lemma so_mix_float_float_float : sound mix_float_float_float.
Proof. sound c_mix_float_float_float. Qed.
Lemma ag_mix_vec2_vec2_float : agrees mix_vec2_vec2_float.
Proof. agree c_mix_vec2_vec2_float. Qed.
Lemma so_mix_vec2_vec2_float : sound mix_vec2_vec2_float.
Proof. sound c_mix_vec2_vec2_float. Qed.
Lemma ag_mix_vec2_vec2_bvec2 : agrees mix_vec2_vec2_bvec2.
Proof. agree c_mix_vec2_vec2_bvec2. Qed.
Lemma so_mix_vec2_vec2_bvec2 : sound mix_vec2_vec2_bvec2.
Proof. sound c_mix_vec2_vec2_bvec2. Qed.
Lemma ag_isinf_vec2 : agrees isinf_vec2.
Proof. agree c_isinf_vec2. Qed.
Lemma so_isinf_vec2 : sound isinf_vec2.
Proof. sound c_isinf_vec2. Qed.
Lemma ag_isnan_float : agrees isnan_float.
Proof. agree c_isnan_float. Qed.
Lemma so_isnan_float : sound isnan_float.
Proof. sound c_isnan_float. Qed.
Lemma ag_isnan_quat : agrees isnan_quat.
Proof. agree c_isnan_quat. Qed.
Lemma so_isnan_quat : sound isnan_quat.
Proof. sound c_isnan_quat. Qed.
Lemma ag_lessThanEqual_vec2_vec2 : agrees lessThanEqual_vec2_vec2.
Proof. agree c_lessThanEqual_vec2_vec2. Qed.
Lemma so_lessThanEqual_vec2_vec2 : sound lessThanEqual_vec2_vec2.
Proof. sound c_lessThanEqual_vec2_vec2. Qed.
Lemma ag_greaterThan_vec3_vec3 : agrees greaterThan_vec3_vec3.
Proof. agree c_greaterThan_vec3_vec3. Qed.
Lemma so_greaterThan_vec3_vec3 : sound greaterThan_vec3_vec3.
Proof. sound c_greaterThan_vec3_vec3. Qed.
Lemma ag_greaterThanEqual_vec4_vec4 : agrees greaterThanEqual_vec4_vec4.
Proof. agree c_greaterThanEqual_vec4_vec4. Qed.
Lemma so_greaterThanEqual_vec4_vec4 : sound greaterThanEqual_vec4_vec4.
Proof. sound c_greaterThanEqual_vec4_vec4. Qed.
Lemma ag_equal_quat_quat : agrees equal_quat_quat.
Proof. agree c_equal_quat_quat. Qed.
Lemma so_equal_quat_quat : sound equal_quat_quat.
Proof. sound c_equal_quat_quat. Qed.
Lemma ag_notEqual_vec2_vec2 : agrees notEqual_vec2_vec2.
Proof. agree c_notEqual_vec2_vec2. Qed.
Lemma so_notEqual_vec2_vec2 : sound notEqual_vec2_vec2.
Proof. sound c_notEqual_vec2_vec2. Qed.
Lemma ag_notEqual_bvec2_bvec2 : agrees notEqual_bvec2_bvec2.
Proof. agree_bool c_notEqual_bvec2_bvec2. Qed.
Lemma so_notEqual_bvec2_bvec2 : sound notEqual_bvec2_bvec2.
Proof. sound c_notEqual_bvec2_bvec2. Qed.
Lemma ag_all_bvec3 : agrees all_bvec3.
Proof. agree c_all_bvec3. Qed.
Lemma so_all_bvec3 : sound all_bvec3.
Proof. sound c_all_bvec3. Qed.
Lemma ag_any_bvec4 : agrees any_bvec4.
Proof. agree c_any_bvec4. Qed.
Lemma so_any_bvec4 : sound any_bvec4.
Proof. sound c_any_bvec4. Qed.
Lemma ag_dot_vec4_vec4 : agrees dot_vec4_vec4.
Proof. agree c_dot_vec4_vec4. Qed.
Lemma so_dot_vec4_vec4 : sound dot_vec4_vec4.
Proof. sound c_dot_vec4_vec4. Qed.
Lemma ag_normalize_vec3 : agrees normalize_vec3.
Proof. agree c_normalize_vec3. Qed.
Lemma so_normalize_vec3 : sound normalize_vec3.
Proof. sound c_normalize_vec3. Qed.
Lemma ag_distance_vec2_vec2 : agrees distance_vec2_vec2.
Proof. agree c_distance_vec2_vec2. Qed.
Lemma so_distance_vec2_vec2 : sound distance_vec2_vec2.
Proof. sound c_distance_vec2_vec2. Qed.
Lemma ag_faceforward_vec2_vec2_vec2 : agrees faceforward_vec2_vec2_vec2.
Proof. agree c_faceforward_vec2_vec2_vec2. Qed.
Lemma so_faceforward_vec2_vec2_vec2 : sound faceforward_vec2_vec2_vec2.
Proof. sound c_faceforward_vec2_vec2_vec2. Qed.
Lemma ag_reflect_vec2_vec2 : agrees reflect_vec2_vec2.
Proof. agree c_reflect_vec2_vec2. Qed.
Lemma so_reflect_vec2_vec2 : sound reflect_vec2_vec2.
Proof. sound c_reflect_vec2_vec2. Qed.
Lemma ag_refract_vec2_vec2_float : agrees refract_vec2_vec2_float.
Proof. agree c_refract_vec2_vec2_float. Qed.
Lemma so_refract_vec2_vec2_float : sound refract_vec2_vec2_float.
Proof. sound c_refract_vec2_vec2_float. Qed.
Lemma ag_length_vec2 : agrees length_vec2.
Proof. agree c_length_vec2. Qed.
Lemma so_length_vec2 : sound length_vec2.
Proof. sound c_length_vec2. Qed.
Lemma ag_length2_float : agrees length2_float.
Proof. agree c_length2_float. Qed.
Lemma so_length2_float : sound length2_float.
Proof. sound c_length2_float. Qed.
Lemma ag_length2_quat : agrees length2_quat.
Proof. agree c_length2_quat. Qed.
Lemma so_length2_quat : sound length2_quat.
Proof. sound c_length2_quat. Qed.
Lemma ag_distance2_vec4_vec4 : agrees distance2_vec4_vec4.
Proof. agree c_distance2_vec4_vec4. Qed.
Lemma so_distance2_vec4_vec4 : sound distance2_vec4_vec4.
Proof. sound c_distance2_vec4_vec4. Qed.
Lemma ag_decode_octahedral_vec2 : agrees decode_octahedral_vec2.
Proof. agree c_decode_octahedral_vec2. Qed.
Lemma so_decode_octahedral_vec2 : sound decode_octahedral_vec2.
Proof. sound c_decode_octahedral_vec2. Qed.
Lemma ag_sqrt_vec4 : agrees sqrt_vec4.
Proof. agree c_sqrt_vec4. Qed.
Lemma so_sqrt_vec4 : sound sqrt_vec4.
Proof. sound c_sqrt_vec4. Qed.
Lemma ag_pow_vec3_vec3 : agrees pow_vec3_vec3.
Proof. agree c_pow_vec3_vec3. Qed.
Lemma so_pow_vec3_vec3 : sound pow_vec3_vec3.
Proof. sound c_pow_vec3_vec3. Qed.
Lemma ag_log_vec2 : agrees log_vec2.
Proof. agree c_log_vec2. Qed.
Lemma so_log_vec2 : sound log_vec2.
Proof. sound c_log_vec2. Qed.
Lemma ag_log2_float : agrees log2_float.
Proof. agree c_log2_float. Qed.
Lemma so_log2_float : sound log2_float.
Proof. sound c_log2_float. Qed.
Lemma ag_log2_quat : agrees log2_quat.
Proof. agree c_log2_quat. Qed.
Lemma so_log2_quat : sound log2_quat.
Proof. sound c_log2_quat. Qed.
Lemma ag_inversesqrt_vec4 : agrees inversesqrt_vec4.
Proof. agree c_inversesqrt_vec4. Qed.
Lemma so_inversesqrt_vec4 : sound inversesqrt_vec4.
Proof. sound c_inversesqrt_vec4. Qed.
Lemma ag_exp_vec3 : agrees exp_vec3.
Proof. agree c_exp_vec3. Qed.
Lemma so_exp_vec3 : sound exp_vec3.
Proof. sound c_exp_vec3. Qed.
Lemma ag_exp2_vec2 : agrees exp2_vec2.
Proof. agree c_exp2_vec2. Qed.
Lemma so_exp2_vec2 : sound exp2_vec2.
Proof. sound c_exp2_vec2. Qed.
Lemma ag_cbrt_float : agrees cbrt_float.
Proof. agree c_cbrt_float. Qed.
Lemma so_cbrt_float : sound cbrt_float.
Proof. sound c_cbrt_float. Qed.
Lemma ag_cbrt_quat : agrees cbrt_quat.
Proof. agree c_cbrt_quat. Qed.
Lemma so_cbrt_quat : sound cbrt_quat.
Proof. sound c_cbrt_quat. Qed.
Lemma ag_cos_vec2 : agrees cos_vec2.
Proof. agree c_cos_vec2. Qed.
Lemma so_cos_vec2 : sound cos_vec2.
Proof. sound c_cos_vec2. Qed.
Lemma ag_sin_vec2 : agrees sin_vec2.
Proof. agree c_sin_vec2. Qed.
Lemma so_sin_vec2 : sound sin_vec2.
Proof. sound c_sin_vec2. Qed.
Lemma ag_acos_vec2 : agrees acos_vec2.
Proof. agree c_acos_vec2. Qed.
Lemma so_acos_vec2 : sound acos_vec2.
Proof. sound c_acos_vec2. Qed.
Lemma ag_acosh_vec2 : agrees acosh_vec2.
Proof. agree c_acosh_vec2. Qed.
Lemma so_acosh_vec2 : sound acosh_vec2.
Proof. sound c_acosh_vec2. Qed.
Lemma ag_asin_vec2 : agrees asin_vec2.
Proof. agree c_asin_vec2. Qed.
Lemma so_asin_vec2 : sound asin_vec2.
Proof. sound c_asin_vec2. Qed.
Lemma ag_asinh_vec2 : agrees asinh_vec2.
Proof. agree c_asinh_vec2. Qed.
Lemma so_asinh_vec2 : sound asinh_vec2.
Proof. sound c_asinh_vec2. Qed.
Lemma ag_atan_vec2_vec2 : agrees atan_vec2_vec2.
Proof. agree c_atan_vec2_vec2. Qed.
Lemma so_atan_vec2_vec2 : sound atan_vec2_vec2.
Proof. sound c_atan_vec2_vec2. Qed.
Lemma ag_atan_vec2 : agrees atan_vec2.
Proof. agree c_atan_vec2. Qed.
Lemma so_atan_vec2 : sound atan_vec2.
Proof. sound c_atan_vec2. Qed.
Lemma ag_atanh_vec2 : agrees atanh_vec2.
Proof. agree c_atanh_vec2. Qed.
Lemma so_atanh_vec2 : sound atanh_vec2.
Proof. sound c_atanh_vec2. Qed.
Lemma ag_cosh_vec2 : agrees cosh_vec2.
Proof. agree c_cosh_vec2. Qed.
Lemma so_cosh_vec2 : sound cosh_vec2.
Proof. sound c_cosh_vec2. Qed.
Lemma ag_degrees_vec2 : agrees degrees_vec2.
Proof. agree c_degrees_vec2. Qed.
Lemma so_degrees_vec2 : sound degrees_vec2.
Proof. sound c_degrees_vec2. Qed.
Lemma ag_radians_vec2 : agrees radians_vec2.
Proof. agree c_radians_vec2. Qed.
Lemma so_radians_vec2 : sound radians_vec2.
Proof. sound c_radians_vec2. Qed.
Lemma ag_sinh_vec2 : agrees sinh_vec2.
Proof. agree c_sinh_vec2. Qed.
Lemma so_sinh_vec2 : sound sinh_vec2.
Proof. sound c_sinh_vec2. Qed.
Lemma ag_tan_vec2 : agrees tan_vec2.
Proof. agree c_tan_vec2. Qed.
Lemma so_tan_vec2 : sound tan_vec2.
Proof. sound c_tan_vec2. Qed.
Lemma ag_tanh_vec2 : agrees tanh_vec2.
Proof. agree c_tanh_vec2. Qed.
Lemma so_tanh_vec2 : sound tanh_vec2.
Proof. sound c_tanh_vec2. Qed.
Lemma ag_compAdd_vec3 : agrees compAdd_vec3.
Proof. agree c_compAdd_vec3. Qed.
Lemma so_compAdd_vec3 : sound compAdd_vec3.
Proof. sound c_compAdd_vec3. Qed.
Lemma ag_compAdd_ivec4 : agrees compAdd_ivec4.
Proof. agree c_compAdd_ivec4. Qed.
Lemma so_compAdd_ivec4 : sound compAdd_ivec4.
Proof. sound c_compAdd_ivec4. Qed.
Lemma ag_compMul_ivec2 : agrees compMul_ivec2.
Proof. agree c_compMul_ivec2. Qed.
Lemma so_compMul_ivec2 : sound compMul_ivec2.
Proof. sound c_compMul_ivec2. Qed.
Lemma ag_compMin_vec3 : agrees compMin_vec3.
Proof. agree c_compMin_vec3. Qed.
Lemma so_compMin_vec3 : sound compMin_vec3.
Proof. sound c_compMin_vec3. Qed.
Lemma ag_compMin_ivec4 : agrees compMin_ivec4.
Proof. agree c_compMin_ivec4. Qed.
Lemma so_compMin_ivec4 : sound compMin_ivec4.
Proof. sound c_compMin_ivec4. Qed.
Lemma ag_compMax_ivec2 : agrees compMax_ivec2.
Proof. agree c_compMax_ivec2. Qed.
Lemma so_compMax_ivec2 : sound compMax_ivec2.
Proof. sound c_compMax_ivec2. Qed.
Lemma ag_zero : agrees zero.
Proof. agree c_zero. Qed.
Lemma so_zero : sound zero.
Proof. sound c_zero. Qed.
Lemma ag_root_pi : agrees root_pi.
Proof. agree c_root_pi. Qed.
Lemma so_root_pi : sound root_pi.
Proof. sound c_root_pi. Qed.
Lemma ag_one_over_pi : agrees one_over_pi.
Proof. agree c_one_over_pi. Qed.
Lemma so_one_over_pi : sound one_over_pi.
Proof. sound c_one_over_pi. Qed.
Lemma ag_two_over_root_pi : agrees two_over_root_pi.
Proof. agree c_two_over_root_pi. Qed.
Lemma so_two_over_root_pi : sound two_over_root_pi.
Proof. sound c_two_over_root_pi. Qed.
Lemma ag_root_ln_four : agrees root_ln_four.
Proof. agree c_root_ln_four. Qed.
Lemma so_root_ln_four : sound root_ln_four.
Proof. sound c_root_ln_four. Qed.
Lemma ag_root_three : agrees root_three.
Proof. agree c_root_three. Qed.
Lemma so_root_three : sound root_three.
Proof. sound c_root_three. Qed.
Lemma ag_ln_ln_two : agrees ln_ln_two.
Proof. agree c_ln_ln_two. Qed.
Lemma so_ln_ln_two : sound ln_ln_two.
Proof. sound c_ln_ln_two. Qed.
Lemma ag_convertLinearToSRGB_vec4_float : agrees convertLinearToSRGB_vec4_float.
Proof. agree c_convertLinearToSRGB_vec4_float. Qed.
Lemma so_convertLinearToSRGB_vec4_float : sound convertLinearToSRGB_vec4_float.
Proof. sound c_convertLinearToSRGB_vec4_float. Qed.
Lemma ag_convertSRGBToLinear_vec3_float : agrees convertSRGBToLinear_vec3_float.
Proof. agree c_convertSRGBToLinear_vec3_float. Qed.
Lemma so_convertSRGBToLinear_vec3_float : sound convertSRGBToLinear_vec3_float.
Proof. sound c_convertSRGBToLinear_vec3_float. Qed.
Lemma ag_matrixCompMult_mat2_mat2 : agrees matrixCompMult_mat2_mat2.
Proof. agree c_matrixCompMult_mat2_mat2. Qed.
Lemma so_matrixCompMult_mat2_mat2 : sound matrixCompMult_mat2_mat2.
Proof. sound c_matrixCompMult_mat2_mat2. Qed.
Lemma ag_transpose_mat3 : agrees transpose_mat3.
Proof. agree c_transpose_mat3. Qed.
Lemma so_transpose_mat3 : sound transpose_mat3.
Proof. sound c_transpose_mat3. Qed.
Lemma ag_determinant_mat4 : agrees determinant_mat4.
Proof. agree c_determinant_mat4. Qed.
Lemma so_determinant_mat4 : sound determinant_mat4.
Proof. sound c_determinant_mat4. Qed.
Lemma ag_adjugate_mat2 : agrees adjugate_mat2.
Proof. agree c_adjugate_mat2. Qed.
Lemma so_adjugate_mat2 : sound adjugate_mat2.
Proof. sound c_adjugate_mat2. Qed.
Lemma ag_inverseTranspose_mat3 : agrees inverseTranspose_mat3.
Proof. agree c_inverseTranspose_mat3. Qed.
Lemma so_inverseTranspose_mat3 : sound inverseTranspose_mat3.
Proof. sound c_inverseTranspose_mat3. Qed.
Lemma ag_adjugateTranspose_mat4 : agrees adjugateTranspose_mat4.
Proof. agree c_adjugateTranspose_mat4. Qed.
Lemma so_adjugateTranspose_mat4 : sound adjugateTranspose_mat4.
Proof. sound c_adjugateTranspose_mat4. Qed.
Lemma ag_lookAtRH_vec3_vec3_vec3 : agrees lookAtRH_vec3_vec3_vec3.
Proof. agree c_lookAtRH_vec3_vec3_vec3. Qed.
Lemma so_lookAtRH_vec3_vec3_vec3 : sound lookAtRH_vec3_vec3_vec3.
Proof. sound c_lookAtRH_vec3_vec3_vec3. Qed.
Lemma ag_orthoRH_ZO_float_float_float_float_float_float : agrees orthoRH_ZO_float_float_float_float_float_float.
Proof. agree c_orthoRH_ZO_float_float_float_float_float_float. Qed.
Lemma so_orthoRH_ZO_float_float_float_float_float_float : sound orthoRH_ZO_float_float_float_float_float_float.
Proof. sound c_orthoRH_ZO_float_float_float_float_float_float. Qed.
Lemma ag_perspectiveRH_NO_float_float_float_float : agrees perspectiveRH_NO_float_float_float_float.
Proof. agree c_perspectiveRH_NO_float_float_float_float. Qed.
Lemma so_perspectiveRH_NO_float_float_float_float : sound perspectiveRH_NO_float_float_float_float.
Proof. sound c_perspectiveRH_NO_float_float_float_float. Qed.
Lemma ag_pitch_quat : agrees pitch_quat.
Proof. agree c_pitch_quat. Qed.
Lemma so_pitch_quat : sound pitch_quat.
Proof. sound c_pitch_quat. Qed.
Lemma ag_mat4_cast_quat : agrees mat4_cast_quat.
Proof. agree c_mat4_cast_quat. Qed.
Lemma so_mat4_cast_quat : sound mat4_cast_quat.
Proof. sound c_mat4_cast_quat. Qed.
Lemma ag_quatLookAtRH_vec3_vec3 : agrees quatLookAtRH_vec3_vec3.
Proof. agree c_quatLookAtRH_vec3_vec3. Qed.
Lemma so_quatLookAtRH_vec3_vec3 : sound quatLookAtRH_vec3_vec3.
Proof. sound c_quatLookAtRH_vec3_vec3. Qed.
Lemma ag_nlerp_quat_quat_float : agrees nlerp_quat_quat_float.
Proof. agree c_nlerp_quat_quat_float. Qed.
Lemma so_nlerp_quat_quat_float : sound nlerp_quat_quat_float.
Proof. sound c_nlerp_quat_quat_float. Qed.
Lemma ag_angleAxis_float_vec3 : agrees angleAxis_float_vec3.
Proof. agree c_angleAxis_float_vec3. Qed.
Lemma so_angleAxis_float_vec3 : sound angleAxis_float_vec3.
Proof. sound c_angleAxis_float_vec3. Qed.
