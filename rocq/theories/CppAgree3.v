(** * Proofs: the source of each function and its model agree (part 3 of 4) *)
From Coq Require Import ZArith NArith Bool List String.
From Verif Require Import Scalar Outcome Types Int32 Cpp CppNames CppCode1 CppCode2 CppCode3 CppProgram CppModel SpecCpp CppTac.
Import ListNotations.
Lemma ag_vec2__float : agrees vec2__float.
Proof. agree c_vec2__float. Qed.
Lemma so_vec2__float : sound vec2__float.
Proof. sound c_vec2__float. Qed.
Lemma ag_op_add_vec2_vec2 : agrees op_add_vec2_vec2.
Proof. agree c_op_add_vec2_vec2. Qed.
Lemma so_op_add_vec2_vec2 : sound op_add_vec2_vec2.
Proof. sound c_op_add_vec2_vec2. Qed.
Lemma ag_op_sub_vec2_float : agrees op_sub_vec2_float.
Proof. agree c_op_sub_vec2_float. Qed.
Lemma so_op_sub_vec2_float : sound op_sub_vec2_float.
Proof. sound c_op_sub_vec2_float. Qed.
Lemma ag_op_mul_float_vec2 : agrees op_mul_float_vec2.
Proof. agree c_op_mul_float_vec2. Qed.
Lemma so_op_mul_float_vec2 : sound op_mul_float_vec2.
Proof. sound c_op_mul_float_vec2. Qed.
Lemma ag_vec2__op_add_assign_vec2 : agrees vec2__op_add_assign_vec2.
Proof. agree c_vec2__op_add_assign_vec2. Qed.
Lemma so_vec2__op_add_assign_vec2 : sound vec2__op_add_assign_vec2.
Proof. sound c_vec2__op_add_assign_vec2. Qed.
Lemma ag_vec2__op_mul_assign_vec2 : agrees vec2__op_mul_assign_vec2.
Proof. agree c_vec2__op_mul_assign_vec2. Qed.
Lemma so_vec2__op_mul_assign_vec2 : sound vec2__op_mul_assign_vec2.
Proof. sound c_vec2__op_mul_assign_vec2. Qed.
Lemma ag_op_add_vec2 : agrees op_add_vec2.
Proof. agree c_op_add_vec2. Qed.
Lemma so_op_add_vec2 : sound op_add_vec2.
Proof. sound c_op_add_vec2. Qed.
Lemma ag_vec2__predec : agrees vec2__predec.
Proof. agree c_vec2__predec. Qed.
Lemma so_vec2__predec : sound vec2__predec.
Proof. sound c_vec2__predec. Qed.
Lemma ag_vec2__index : agrees vec2__index.
Proof. agree_index c_vec2__index. Qed.
Lemma so_vec2__index : sound vec2__index.
Proof. agree_index c_vec2__index. Qed.
Lemma ag_vec3__float : agrees vec3__float.
Proof. agree c_vec3__float. Qed.
Lemma so_vec3__float : sound vec3__float.
Proof. sound c_vec3__float. Qed.
Lemma ag_vec3__float_vec2 : agrees vec3__float_vec2.
Proof. agree c_vec3__float_vec2. Qed.
Lemma so_vec3__float_vec2 : sound vec3__float_vec2.
Proof. sound c_vec3__float_vec2. Qed.
Lemma ag_op_add_float_vec3 : agrees op_add_float_vec3.
Proof. agree c_op_add_float_vec3. Qed.
Lemma so_op_add_float_vec3 : sound op_add_float_vec3.
Proof. sound c_op_add_float_vec3. Qed.
Lemma ag_op_mul_vec3_vec3 : agrees op_mul_vec3_vec3.
Proof. agree c_op_mul_vec3_vec3. Qed.
Lemma so_op_mul_vec3_vec3 : sound op_mul_vec3_vec3.
Proof. sound c_op_mul_vec3_vec3. Qed.
Lemma ag_op_div_vec3_float : agrees op_div_vec3_float.
Proof. agree c_op_div_vec3_float. Qed.
Lemma so_op_div_vec3_float : sound op_div_vec3_float.
Proof. sound c_op_div_vec3_float. Qed.
Lemma ag_vec3__op_sub_assign_vec3 : agrees vec3__op_sub_assign_vec3.
Proof. agree c_vec3__op_sub_assign_vec3. Qed.
Lemma so_vec3__op_sub_assign_vec3 : sound vec3__op_sub_assign_vec3.
Proof. sound c_vec3__op_sub_assign_vec3. Qed.
Lemma ag_vec3__op_div_assign_vec3 : agrees vec3__op_div_assign_vec3.
Proof. agree c_vec3__op_div_assign_vec3. Qed.
Lemma so_vec3__op_div_assign_vec3 : sound vec3__op_div_assign_vec3.
Proof. sound c_vec3__op_div_assign_vec3. Qed.
Lemma ag_vec3__preinc : agrees vec3__preinc.
Proof. agree c_vec3__preinc. Qed.
Lemma so_vec3__preinc : sound vec3__preinc.
Proof. sound c_vec3__preinc. Qed.
Lemma ag_op_eq_vec3_vec3 : agrees op_eq_vec3_vec3.
Proof. agree c_op_eq_vec3_vec3. Qed.
Lemma so_op_eq_vec3_vec3 : sound op_eq_vec3_vec3.
Proof. sound c_op_eq_vec3_vec3. Qed.
Lemma ag_vec4__default : agrees vec4__default.
Proof. agree c_vec4__default. Qed.
Lemma so_vec4__default : sound vec4__default.
Proof. sound c_vec4__default. Qed.
Lemma ag_vec4__float_float_float_float : agrees vec4__float_float_float_float.
Proof. agree c_vec4__float_float_float_float. Qed.
Lemma so_vec4__float_float_float_float : sound vec4__float_float_float_float.
Proof. sound c_vec4__float_float_float_float. Qed.
Lemma ag_vec4__vec2_float_float : agrees vec4__vec2_float_float.
Proof. agree c_vec4__vec2_float_float. Qed.
Lemma so_vec4__vec2_float_float : sound vec4__vec2_float_float.
Proof. sound c_vec4__vec2_float_float. Qed.
Lemma ag_op_add_vec4_vec4 : agrees op_add_vec4_vec4.
Proof. agree c_op_add_vec4_vec4. Qed.
Lemma so_op_add_vec4_vec4 : sound op_add_vec4_vec4.
Proof. sound c_op_add_vec4_vec4. Qed.
Lemma ag_op_sub_vec4_float : agrees op_sub_vec4_float.
Proof. agree c_op_sub_vec4_float. Qed.
Lemma so_op_sub_vec4_float : sound op_sub_vec4_float.
Proof. sound c_op_sub_vec4_float. Qed.
Lemma ag_op_mul_float_vec4 : agrees op_mul_float_vec4.
Proof. agree c_op_mul_float_vec4. Qed.
Lemma so_op_mul_float_vec4 : sound op_mul_float_vec4.
Proof. sound c_op_mul_float_vec4. Qed.
Lemma ag_vec4__op_add_assign_vec4 : agrees vec4__op_add_assign_vec4.
Proof. agree c_vec4__op_add_assign_vec4. Qed.
Lemma so_vec4__op_add_assign_vec4 : sound vec4__op_add_assign_vec4.
Proof. sound c_vec4__op_add_assign_vec4. Qed.
Lemma ag_vec4__op_mul_assign_vec4 : agrees vec4__op_mul_assign_vec4.
Proof. agree c_vec4__op_mul_assign_vec4. Qed.
Lemma so_vec4__op_mul_assign_vec4 : sound vec4__op_mul_assign_vec4.
Proof. sound c_vec4__op_mul_assign_vec4. Qed.
Lemma ag_op_sub_vec4 : agrees op_sub_vec4.
Proof. agree c_op_sub_vec4. Qed.
Lemma so_op_sub_vec4 : sound op_sub_vec4.
Proof. sound c_op_sub_vec4. Qed.
Lemma ag_vec4__predec : agrees vec4__predec.
Proof. agree c_vec4__predec. Qed.
Lemma so_vec4__predec : sound vec4__predec.
Proof. sound c_vec4__predec. Qed.
Lemma ag_vec4__index : agrees vec4__index.
Proof. agree_index c_vec4__index. Qed.
Lemma so_vec4__index : sound vec4__index.
Proof. agree_index c_vec4__index. Qed.
Lemma ag_ivec2__int : agrees ivec2__int.
Proof. agree c_ivec2__int. Qed.
Lemma so_ivec2__int : sound ivec2__int.
Proof. sound c_ivec2__int. Qed.
Lemma ag_make_ivec2_int_ptr : agrees make_ivec2_int_ptr.
Proof. start_ptr c_make_ivec2_int_ptr inv_ptr_int dPI_map 2. Qed.
Lemma so_make_ivec2_int_ptr : sound make_ivec2_int_ptr.
Proof. start_ptr c_make_ivec2_int_ptr inv_ptr_int dPI_map 2. Qed.
Lemma ag_op_sub_ivec2_ivec2 : agrees op_sub_ivec2_ivec2.
Proof. agree c_op_sub_ivec2_ivec2. Qed.
Lemma so_op_sub_ivec2_ivec2 : sound op_sub_ivec2_ivec2.
Proof. sound c_op_sub_ivec2_ivec2. Qed.
Lemma ag_op_mul_ivec2_int : agrees op_mul_ivec2_int.
Proof. agree c_op_mul_ivec2_int. Qed.
Lemma so_op_mul_ivec2_int : sound op_mul_ivec2_int.
Proof. sound c_op_mul_ivec2_int. Qed.
Lemma ag_op_div_int_ivec2 : agrees op_div_int_ivec2.
Proof. agree c_op_div_int_ivec2. Qed.
Lemma so_op_div_int_ivec2 : sound op_div_int_ivec2.
Proof. sound c_op_div_int_ivec2. Qed.
Lemma ag_op_or_ivec2_ivec2 : agrees op_or_ivec2_ivec2.
Proof. agree c_op_or_ivec2_ivec2. Qed.
Lemma so_op_or_ivec2_ivec2 : sound op_or_ivec2_ivec2.
Proof. sound c_op_or_ivec2_ivec2. Qed.
Lemma ag_op_and_ivec2_int : agrees op_and_ivec2_int.
Proof. agree c_op_and_ivec2_int. Qed.
Lemma so_op_and_ivec2_int : sound op_and_ivec2_int.
Proof. sound c_op_and_ivec2_int. Qed.
Lemma ag_op_xor_int_ivec2 : agrees op_xor_int_ivec2.
Proof. agree c_op_xor_int_ivec2. Qed.
Lemma so_op_xor_int_ivec2 : sound op_xor_int_ivec2.
Proof. sound c_op_xor_int_ivec2. Qed.
Lemma ag_op_shl_ivec2_ivec2 : agrees op_shl_ivec2_ivec2.
Proof. agree c_op_shl_ivec2_ivec2. Qed.
Lemma so_op_shl_ivec2_ivec2 : sound op_shl_ivec2_ivec2.
Proof. sound c_op_shl_ivec2_ivec2. Qed.
Lemma ag_ivec2__op_add_assign_int : agrees ivec2__op_add_assign_int.
Proof. agree c_ivec2__op_add_assign_int. Qed.
Lemma so_ivec2__op_add_assign_int : sound ivec2__op_add_assign_int.
Proof. sound c_ivec2__op_add_assign_int. Qed.
Lemma ag_ivec2__op_mul_assign_int : agrees ivec2__op_mul_assign_int.
Proof. agree c_ivec2__op_mul_assign_int. Qed.
Lemma so_ivec2__op_mul_assign_int : sound ivec2__op_mul_assign_int.
Proof. sound c_ivec2__op_mul_assign_int. Qed.
Lemma ag_ivec2__op_rem_assign_int : agrees ivec2__op_rem_assign_int.
Proof. agree c_ivec2__op_rem_assign_int. Qed.
Lemma so_ivec2__op_rem_assign_int : sound ivec2__op_rem_assign_int.
Proof. sound c_ivec2__op_rem_assign_int. Qed.
Lemma ag_ivec2__op_and_assign_int : agrees ivec2__op_and_assign_int.
Proof. agree c_ivec2__op_and_assign_int. Qed.
Lemma so_ivec2__op_and_assign_int : sound ivec2__op_and_assign_int.
Proof. sound c_ivec2__op_and_assign_int. Qed.
Lemma ag_ivec2__op_shr_assign_int : agrees ivec2__op_shr_assign_int.
Proof. agree c_ivec2__op_shr_assign_int. Qed.
Lemma so_ivec2__op_shr_assign_int : sound ivec2__op_shr_assign_int.
Proof. sound c_ivec2__op_shr_assign_int. Qed.
Lemma ag_op_ne_ivec2_ivec2 : agrees op_ne_ivec2_ivec2.
Proof. agree c_op_ne_ivec2_ivec2. Qed.
Lemma so_op_ne_ivec2_ivec2 : sound op_ne_ivec2_ivec2.
Proof. sound c_op_ne_ivec2_ivec2. Qed.
Lemma ag_op_ge_ivec2_ivec2 : agrees op_ge_ivec2_ivec2.
Proof. agree c_op_ge_ivec2_ivec2. Qed.
Lemma so_op_ge_ivec2_ivec2 : sound op_ge_ivec2_ivec2.
Proof. sound c_op_ge_ivec2_ivec2. Qed.
Lemma ag_ivec2__preinc : agrees ivec2__preinc.
Proof. agree c_ivec2__preinc. Qed.
Lemma so_ivec2__preinc : sound ivec2__preinc.
Proof. sound c_ivec2__preinc. Qed.
Lemma ag_ivec3__default : agrees ivec3__default.
Proof. agree c_ivec3__default. Qed.
Lemma so_ivec3__default : sound ivec3__default.
Proof. sound c_ivec3__default. Qed.
Lemma ag_ivec3__ivec2_int : agrees ivec3__ivec2_int.
Proof. agree c_ivec3__ivec2_int. Qed.
Lemma so_ivec3__ivec2_int : sound ivec3__ivec2_int.
Proof. sound c_ivec3__ivec2_int. Qed.
Lemma ag_op_add_ivec3_int : agrees op_add_ivec3_int.
Proof. agree c_op_add_ivec3_int. Qed.
Lemma so_op_add_ivec3_int : sound op_add_ivec3_int.
Proof. sound c_op_add_ivec3_int. Qed.
Lemma ag_op_sub_int_ivec3 : agrees op_sub_int_ivec3.
Proof. agree c_op_sub_int_ivec3. Qed.
Lemma so_op_sub_int_ivec3 : sound op_sub_int_ivec3.
Proof. sound c_op_sub_int_ivec3. Qed.
Lemma ag_op_div_ivec3_ivec3 : agrees op_div_ivec3_ivec3.
Proof. agree c_op_div_ivec3_ivec3. Qed.
Lemma so_op_div_ivec3_ivec3 : sound op_div_ivec3_ivec3.
Proof. sound c_op_div_ivec3_ivec3. Qed.
Lemma ag_op_rem_ivec3_int : agrees op_rem_ivec3_int.
Proof. agree c_op_rem_ivec3_int. Qed.
Lemma so_op_rem_ivec3_int : sound op_rem_ivec3_int.
Proof. sound c_op_rem_ivec3_int. Qed.
Lemma ag_op_or_int_ivec3 : agrees op_or_int_ivec3.
Proof. agree c_op_or_int_ivec3. Qed.
Lemma so_op_or_int_ivec3 : sound op_or_int_ivec3.
Proof. sound c_op_or_int_ivec3. Qed.
Lemma ag_op_xor_ivec3_ivec3 : agrees op_xor_ivec3_ivec3.
Proof. agree c_op_xor_ivec3_ivec3. Qed.
Lemma so_op_xor_ivec3_ivec3 : sound op_xor_ivec3_ivec3.
Proof. sound c_op_xor_ivec3_ivec3. Qed.
Lemma ag_op_shr_ivec3_int : agrees op_shr_ivec3_int.
Proof. agree c_op_shr_ivec3_int. Qed.
Lemma so_op_shr_ivec3_int : sound op_shr_ivec3_int.
Proof. sound c_op_shr_ivec3_int. Qed.
Lemma ag_op_shl_int_ivec3 : agrees op_shl_int_ivec3.
Proof. agree c_op_shl_int_ivec3. Qed.
Lemma so_op_shl_int_ivec3 : sound op_shl_int_ivec3.
Proof. sound c_op_shl_int_ivec3. Qed.
Lemma ag_ivec3__op_sub_assign_int : agrees ivec3__op_sub_assign_int.
Proof. agree c_ivec3__op_sub_assign_int. Qed.
Lemma so_ivec3__op_sub_assign_int : sound ivec3__op_sub_assign_int.
Proof. sound c_ivec3__op_sub_assign_int. Qed.
Lemma ag_ivec3__op_div_assign_int : agrees ivec3__op_div_assign_int.
Proof. agree c_ivec3__op_div_assign_int. Qed.
Lemma so_ivec3__op_div_assign_int : sound ivec3__op_div_assign_int.
Proof. sound c_ivec3__op_div_assign_int. Qed.
Lemma ag_ivec3__op_or_assign_int : agrees ivec3__op_or_assign_int.
Proof. agree c_ivec3__op_or_assign_int. Qed.
Lemma so_ivec3__op_or_assign_int : sound ivec3__op_or_assign_int.
Proof. sound c_ivec3__op_or_assign_int. Qed.
Lemma ag_ivec3__op_xor_assign_int : agrees ivec3__op_xor_assign_int.
Proof. agree c_ivec3__op_xor_assign_int. Qed.
Lemma so_ivec3__op_xor_assign_int : sound ivec3__op_xor_assign_int.
Proof. sound c_ivec3__op_xor_assign_int. Qed.
Lemma ag_ivec3__op_shl_assign_int : agrees ivec3__op_shl_assign_int.
Proof. agree c_ivec3__op_shl_assign_int. Qed.
Lemma so_ivec3__op_shl_assign_int : sound ivec3__op_shl_assign_int.
Proof. sound c_ivec3__op_shl_assign_int. Qed.
Lemma ag_op_ne_ivec3_ivec3 : agrees op_ne_ivec3_ivec3.
Proof. agree c_op_ne_ivec3_ivec3. Qed.
Lemma so_op_ne_ivec3_ivec3 : sound op_ne_ivec3_ivec3.
Proof. sound c_op_ne_ivec3_ivec3. Qed.
Lemma ag_ivec3__postinc : agrees ivec3__postinc.
Proof. agree c_ivec3__postinc. Qed.
Lemma so_ivec3__postinc : sound ivec3__postinc.
Proof. sound c_ivec3__postinc. Qed.
Lemma ag_op_lt_ivec3_ivec3 : agrees op_lt_ivec3_ivec3.
Proof. agree c_op_lt_ivec3_ivec3. Qed.
Lemma so_op_lt_ivec3_ivec3 : sound op_lt_ivec3_ivec3.
Proof. sound c_op_lt_ivec3_ivec3. Qed.
Lemma ag_ivec4__default : agrees ivec4__default.
Proof. agree c_ivec4__default. Qed.
Lemma so_ivec4__default : sound ivec4__default.
Proof. sound c_ivec4__default. Qed.
Lemma ag_ivec4__ivec3_int : agrees ivec4__ivec3_int.
Proof. agree c_ivec4__ivec3_int. Qed.
Lemma so_ivec4__ivec3_int : sound ivec4__ivec3_int.
Proof. sound c_ivec4__ivec3_int. Qed.
Lemma ag_ivec4__int_ivec2_int : agrees ivec4__int_ivec2_int.
Proof. agree c_ivec4__int_ivec2_int. Qed.
Lemma so_ivec4__int_ivec2_int : sound ivec4__int_ivec2_int.
Proof. sound c_ivec4__int_ivec2_int. Qed.
Lemma ag_op_add_ivec4_int : agrees op_add_ivec4_int.
Proof. agree c_op_add_ivec4_int. Qed.
Lemma so_op_add_ivec4_int : sound op_add_ivec4_int.
Proof. sound c_op_add_ivec4_int. Qed.
Lemma ag_op_sub_int_ivec4 : agrees op_sub_int_ivec4.
Proof. agree c_op_sub_int_ivec4. Qed.
Lemma so_op_sub_int_ivec4 : sound op_sub_int_ivec4.
Proof. sound c_op_sub_int_ivec4. Qed.
Lemma ag_op_div_ivec4_ivec4 : agrees op_div_ivec4_ivec4.
Proof. agree c_op_div_ivec4_ivec4. Qed.
Lemma so_op_div_ivec4_ivec4 : sound op_div_ivec4_ivec4.
Proof. sound c_op_div_ivec4_ivec4. Qed.
Lemma ag_ivec4__op_add_assign_int : agrees ivec4__op_add_assign_int.
Proof. agree c_ivec4__op_add_assign_int. Qed.
Lemma so_ivec4__op_add_assign_int : sound ivec4__op_add_assign_int.
Proof. sound c_ivec4__op_add_assign_int. Qed.
Lemma ag_ivec4__op_mul_assign_int : agrees ivec4__op_mul_assign_int.
Proof. agree c_ivec4__op_mul_assign_int. Qed.
Lemma so_ivec4__op_mul_assign_int : sound ivec4__op_mul_assign_int.
Proof. sound c_ivec4__op_mul_assign_int. Qed.
Lemma ag_op_add_ivec4 : agrees op_add_ivec4.
Proof. agree c_op_add_ivec4. Qed.
Lemma so_op_add_ivec4 : sound op_add_ivec4.
Proof. sound c_op_add_ivec4. Qed.
Lemma ag_ivec4__postdec : agrees ivec4__postdec.
Proof. agree c_ivec4__postdec. Qed.
Lemma so_ivec4__postdec : sound ivec4__postdec.
Proof. sound c_ivec4__postdec. Qed.
Lemma ag_op_le_ivec4_ivec4 : agrees op_le_ivec4_ivec4.
Proof. agree c_op_le_ivec4_ivec4. Qed.
Lemma so_op_le_ivec4_ivec4 : sound op_le_ivec4_ivec4.
Proof. sound c_op_le_ivec4_ivec4. Qed.
Lemma ag_ivec4__index_const : agrees ivec4__index_const.
Proof. agree_index c_ivec4__index_const. Qed.
Lemma so_ivec4__index_const : sound ivec4__index_const.
Proof. agree_index c_ivec4__index_const. Qed.
Lemma ag_bvec2__bool_bool : agrees bvec2__bool_bool.
Proof. agree c_bvec2__bool_bool. Qed.
Lemma so_bvec2__bool_bool : sound bvec2__bool_bool.
Proof. sound c_bvec2__bool_bool. Qed.
Lemma ag_op_lor_bvec2_bvec2 : agrees op_lor_bvec2_bvec2.
Proof. agree c_op_lor_bvec2_bvec2. Qed.
Lemma so_op_lor_bvec2_bvec2 : sound op_lor_bvec2_bvec2.
Proof. sound c_op_lor_bvec2_bvec2. Qed.
Lemma ag_op_xor_bvec2_bool : agrees op_xor_bvec2_bool.
Proof. agree c_op_xor_bvec2_bool. Qed.
Lemma so_op_xor_bvec2_bool : sound op_xor_bvec2_bool.
Proof. sound c_op_xor_bvec2_bool. Qed.
Lemma ag_bvec2__op_or_assign_bool : agrees bvec2__op_or_assign_bool.
Proof. agree c_bvec2__op_or_assign_bool. Qed.
Lemma so_bvec2__op_or_assign_bool : sound bvec2__op_or_assign_bool.
Proof. sound c_bvec2__op_or_assign_bool. Qed.
Lemma ag_bvec2__op_xor_assign_bvec2 : agrees bvec2__op_xor_assign_bvec2.
Proof. agree c_bvec2__op_xor_assign_bvec2. Qed.
Lemma so_bvec2__op_xor_assign_bvec2 : sound bvec2__op_xor_assign_bvec2.
Proof. sound c_bvec2__op_xor_assign_bvec2. Qed.
Lemma ag_bvec2__index_const : agrees bvec2__index_const.
Proof. agree_index c_bvec2__index_const. Qed.
Lemma so_bvec2__index_const : sound bvec2__index_const.
Proof. agree_index c_bvec2__index_const. Qed.
Lemma ag_bvec3__bool_bool_bool : agrees bvec3__bool_bool_bool.
Proof. agree c_bvec3__bool_bool_bool. Qed.
Lemma so_bvec3__bool_bool_bool : sound bvec3__bool_bool_bool.
Proof. sound c_bvec3__bool_bool_bool. Qed.
Lemma ag_op_land_bvec3_bool : agrees op_land_bvec3_bool.
Proof. agree c_op_land_bvec3_bool. Qed.
Lemma so_op_land_bvec3_bool : sound op_land_bvec3_bool.
Proof. sound c_op_land_bvec3_bool. Qed.
Lemma ag_op_lor_bool_bvec3 : agrees op_lor_bool_bvec3.
Proof. agree c_op_lor_bool_bvec3. Qed.
Lemma so_op_lor_bool_bvec3 : sound op_lor_bool_bvec3.
Proof. sound c_op_lor_bool_bvec3. Qed.
Lemma ag_op_not_bvec3 : agrees op_not_bvec3.
Proof. agree c_op_not_bvec3. Qed.
Lemma so_op_not_bvec3 : sound op_not_bvec3.
Proof. sound c_op_not_bvec3. Qed.
Lemma ag_bvec3__op_and_assign_bvec3 : agrees bvec3__op_and_assign_bvec3.
Proof. agree c_bvec3__op_and_assign_bvec3. Qed.
Lemma so_bvec3__op_and_assign_bvec3 : sound bvec3__op_and_assign_bvec3.
Proof. sound c_bvec3__op_and_assign_bvec3. Qed.
Lemma ag_op_ne_bvec3_bvec3 : agrees op_ne_bvec3_bvec3.
Proof. agree c_op_ne_bvec3_bvec3. Qed.
Lemma so_op_ne_bvec3_bvec3 : sound op_ne_bvec3_bvec3.
Proof. sound c_op_ne_bvec3_bvec3. Qed.
Lemma ag_bvec4__default : agrees bvec4__default.
Proof. agree c_bvec4__default. Qed.
Lemma so_bvec4__default : sound bvec4__default.
Proof. sound c_bvec4__default. Qed.
Lemma ag_bvec4__bool_bvec3 : agrees bvec4__bool_bvec3.
Proof. agree c_bvec4__bool_bvec3. Qed.
Lemma so_bvec4__bool_bvec3 : sound bvec4__bool_bvec3.
Proof. sound c_bvec4__bool_bvec3. Qed.
Lemma ag_bvec4__bool_bool_bvec2 : agrees bvec4__bool_bool_bvec2.
Proof. agree c_bvec4__bool_bool_bvec2. Qed.
Lemma so_bvec4__bool_bool_bvec2 : sound bvec4__bool_bool_bvec2.
Proof. sound c_bvec4__bool_bool_bvec2. Qed.
Lemma ag_op_lor_bvec4_bvec4 : agrees op_lor_bvec4_bvec4.
Proof. agree c_op_lor_bvec4_bvec4. Qed.
Lemma so_op_lor_bvec4_bvec4 : sound op_lor_bvec4_bvec4.
Proof. sound c_op_lor_bvec4_bvec4. Qed.
Lemma ag_op_xor_bvec4_bool : agrees op_xor_bvec4_bool.
Proof. agree c_op_xor_bvec4_bool. Qed.
Lemma so_op_xor_bvec4_bool : sound op_xor_bvec4_bool.
Proof. sound c_op_xor_bvec4_bool. Qed.
Lemma ag_op_ne_bvec4_bvec4 : agrees op_ne_bvec4_bvec4.
Proof. agree c_op_ne_bvec4_bvec4. Qed.
Lemma so_op_ne_bvec4_bvec4 : sound op_ne_bvec4_bvec4.
Proof. sound c_op_ne_bvec4_bvec4. Qed.
Lemma ag_bvec4__op_and_assign_bvec4 : agrees bvec4__op_and_assign_bvec4.
Proof. agree c_bvec4__op_and_assign_bvec4. Qed.
Lemma so_bvec4__op_and_assign_bvec4 : sound bvec4__op_and_assign_bvec4.
Proof. sound c_bvec4__op_and_assign_bvec4. Qed.
Lemma ag_bvec4__index_const : agrees bvec4__index_const.
Proof. agree_index c_bvec4__index_const. Qed.
Lemma so_bvec4__index_const : sound bvec4__index_const.
Proof. agree_index c_bvec4__index_const. Qed.
Lemma ag_mat2__float : agrees mat2__float.
Proof. agree c_mat2__float. Qed.
Lemma so_mat2__float : sound mat2__float.
Proof. sound c_mat2__float. Qed.
Lemma ag_mat2__index_const : agrees mat2__index_const.
Proof. agree_index c_mat2__index_const. Qed.
Lemma so_mat2__index_const : sound mat2__index_const.
Proof. agree_index c_mat2__index_const. Qed.
Lemma ag_op_add_mat2 : agrees op_add_mat2.
Proof. agree c_op_add_mat2. Qed.
Lemma so_op_add_mat2 : sound op_add_mat2.
Proof. sound c_op_add_mat2. Qed.
Lemma ag_op_div_mat2_float : agrees op_div_mat2_float.
Proof. agree c_op_div_mat2_float. Qed.
Lemma so_op_div_mat2_float : sound op_div_mat2_float.
Proof. sound c_op_div_mat2_float. Qed.
Lemma ag_op_mul_vec2_mat2 : agrees op_mul_vec2_mat2.
Proof. agree c_op_mul_vec2_mat2. Qed.
Lemma so_op_mul_vec2_mat2 : sound op_mul_vec2_mat2.
Proof. sound c_op_mul_vec2_mat2. Qed.
Lemma ag_mat2__op_sub_assign_mat2 : agrees mat2__op_sub_assign_mat2.
Proof. agree c_mat2__op_sub_assign_mat2. Qed.
Lemma so_mat2__op_sub_assign_mat2 : sound mat2__op_sub_assign_mat2.
Proof. sound c_mat2__op_sub_assign_mat2. Qed.
Lemma ag_op_ne_mat2_mat2 : agrees op_ne_mat2_mat2.
Proof. agree c_op_ne_mat2_mat2. Qed.
Lemma so_op_ne_mat2_mat2 : sound op_ne_mat2_mat2.
Proof. sound c_op_ne_mat2_mat2. Qed.
Lemma ag_mat3__float : agrees mat3__float.
Proof. agree c_mat3__float. Qed.
Lemma so_mat3__float : sound mat3__float.
Proof. sound c_mat3__float. Qed.
Lemma ag_mat3__float_float_float_float_float_float_float_float_float : agrees mat3__float_float_float_float_float_float_float_float_float.
Proof. agree c_mat3__float_float_float_float_float_float_float_float_float. Qed.
Lemma so_mat3__float_float_float_float_float_float_float_float_float : sound mat3__float_float_float_float_float_float_float_float_float.
Proof. sound c_mat3__float_float_float_float_float_float_float_float_float. Qed.
Lemma ag_op_add_mat3 : agrees op_add_mat3.
Proof. agree c_op_add_mat3. Qed.
Lemma so_op_add_mat3 : sound op_add_mat3.
Proof. sound c_op_add_mat3. Qed.
Lemma ag_op_div_mat3_float : agrees op_div_mat3_float.
Proof. agree c_op_div_mat3_float. Qed.
Lemma so_op_div_mat3_float : sound op_div_mat3_float.
Proof. sound c_op_div_mat3_float. Qed.
Lemma ag_mat3__index_const : agrees mat3__index_const.
Proof. agree_index c_mat3__index_const. Qed.
Lemma so_mat3__index_const : sound mat3__index_const.
Proof. agree_index c_mat3__index_const. Qed.
Lemma ag_mat3__op_div_assign_mat3 : agrees mat3__op_div_assign_mat3.
Proof. agree c_mat3__op_div_assign_mat3. Qed.
Lemma so_mat3__op_div_assign_mat3 : sound mat3__op_div_assign_mat3.
Proof. sound c_mat3__op_div_assign_mat3. Qed.
Lemma ag_op_div_vec3_mat3 : agrees op_div_vec3_mat3.
Proof. agree c_op_div_vec3_mat3. Qed.
Lemma so_op_div_vec3_mat3 : sound op_div_vec3_mat3.
Proof. sound c_op_div_vec3_mat3. Qed.
Lemma ag_mat4__default : agrees mat4__default.
Proof. agree c_mat4__default. Qed.
Lemma so_mat4__default : sound mat4__default.
Proof. sound c_mat4__default. Qed.
Lemma ag_mat4__float_float_float_float_float_float_float_float_float_float_float_float_float_float_float_float : agrees mat4__float_float_float_float_float_float_float_float_float_float_float_float_float_float_float_float.
Proof. agree c_mat4__float_float_float_float_float_float_float_float_float_float_float_float_float_float_float_float. Qed.
Lemma so_mat4__float_float_float_float_float_float_float_float_float_float_float_float_float_float_float_float : sound mat4__float_float_float_float_float_float_float_float_float_float_float_float_float_float_float_float.
Proof. sound c_mat4__float_float_float_float_float_float_float_float_float_float_float_float_float_float_float_float. Qed.
Lemma ag_op_sub_mat4_mat4 : agrees op_sub_mat4_mat4.
Proof. agree c_op_sub_mat4_mat4. Qed.
Lemma so_op_sub_mat4_mat4 : sound op_sub_mat4_mat4.
Proof. sound c_op_sub_mat4_mat4. Qed.
Lemma ag_op_div_mat4_mat4 : agrees op_div_mat4_mat4.
Proof. agree c_op_div_mat4_mat4. Qed.
Lemma so_op_div_mat4_mat4 : sound op_div_mat4_mat4.
Proof. sound c_op_div_mat4_mat4. Qed.
Lemma ag_op_div_float_mat4 : agrees op_div_float_mat4.
Proof. agree c_op_div_float_mat4. Qed.
Lemma so_op_div_float_mat4 : sound op_div_float_mat4.
Proof. sound c_op_div_float_mat4. Qed.
Lemma ag_mat4__op_div_assign_mat4 : agrees mat4__op_div_assign_mat4.
Proof. agree c_mat4__op_div_assign_mat4. Qed.
Lemma so_mat4__op_div_assign_mat4 : sound mat4__op_div_assign_mat4.
Proof. sound c_mat4__op_div_assign_mat4. Qed.
Lemma ag_op_mul_vec4_mat4 : agrees op_mul_vec4_mat4.
Proof. agree c_op_mul_vec4_mat4. Qed.
Lemma so_op_mul_vec4_mat4 : sound op_mul_vec4_mat4.
Proof. sound c_op_mul_vec4_mat4. Qed.
Lemma ag_op_ne_mat4_mat4 : agrees op_ne_mat4_mat4.
Proof. agree c_op_ne_mat4_mat4. Qed.
Lemma so_op_ne_mat4_mat4 : sound op_ne_mat4_mat4.
Proof. sound c_op_ne_mat4_mat4. Qed.
Lemma ag_quat__float_float_float_float : agrees quat__float_float_float_float.
Proof. agree c_quat__float_float_float_float. Qed.
Lemma so_quat__float_float_float_float : sound quat__float_float_float_float.
Proof. sound c_quat__float_float_float_float. Qed.
Lemma ag_quat__vec3_vec3 : agrees quat__vec3_vec3.
Proof. agree c_quat__vec3_vec3. Qed.
Lemma so_quat__vec3_vec3 : sound quat__vec3_vec3.
Proof. sound c_quat__vec3_vec3. Qed.
Lemma ag_quat__index_const : agrees quat__index_const.
Proof. agree_index c_quat__index_const. Qed.
Lemma so_quat__index_const : sound quat__index_const.
Proof. agree_index c_quat__index_const. Qed.
Lemma ag_quat__op_mul_assign_float : agrees quat__op_mul_assign_float.
Proof. agree c_quat__op_mul_assign_float. Qed.
Lemma so_quat__op_mul_assign_float : sound quat__op_mul_assign_float.
Proof. sound c_quat__op_mul_assign_float. Qed.
Lemma ag_op_add_quat : agrees op_add_quat.
Proof. agree c_op_add_quat. Qed.
Lemma so_op_add_quat : sound op_add_quat.
Proof. sound c_op_add_quat. Qed.
Lemma ag_op_mul_float_quat : agrees op_mul_float_quat.
Proof. agree c_op_mul_float_quat. Qed.
Lemma so_op_mul_float_quat : sound op_mul_float_quat.
Proof. sound c_op_mul_float_quat. Qed.
Lemma ag_op_mul_vec3_quat : agrees op_mul_vec3_quat.
Proof. agree c_op_mul_vec3_quat. Qed.
Lemma so_op_mul_vec3_quat : sound op_mul_vec3_quat.
Proof. sound c_op_mul_vec3_quat. Qed.
Lemma ag_abs_vec2 : agrees abs_vec2.
Proof. agree c_abs_vec2. Qed.
Lemma so_abs_vec2 : sound abs_vec2.
Proof. sound c_abs_vec2. Qed.
Lemma ag_abs_ivec2 : agrees abs_ivec2.
Proof. agree c_abs_ivec2. Qed.
Lemma so_abs_ivec2 : sound abs_ivec2.
Proof. sound c_abs_ivec2. Qed.
Lemma ag_ceil_vec2 : agrees ceil_vec2.
Proof. agree c_ceil_vec2. Qed.
Lemma so_ceil_vec2 : sound ceil_vec2.
Proof. sound c_ceil_vec2. Qed.
Lemma ag_clamp_vec2_vec2_vec2 : agrees clamp_vec2_vec2_vec2.
Proof. agree c_clamp_vec2_vec2_vec2. Qed.
Lemma so_clamp_vec2_vec2_vec2 : sound clamp_vec2_vec2_vec2.
Proof. sound c_clamp_vec2_vec2_vec2. Qed.
Lemma ag_clamp_ivec2_ivec2_ivec2 : agrees clamp_ivec2_ivec2_ivec2.
Proof. agree c_clamp_ivec2_ivec2_ivec2. Qed.
Lemma so_clamp_ivec2_ivec2_ivec2 : sound clamp_ivec2_ivec2_ivec2.
Proof. sound c_clamp_ivec2_ivec2_ivec2. Qed.
Lemma ag_floor_vec2 : agrees floor_vec2.
Proof. agree c_floor_vec2. Qed.
Lemma so_floor_vec2 : sound floor_vec2.
Proof. sound c_floor_vec2. Qed.
Lemma ag_fma_vec2_vec2_vec2 : agrees fma_vec2_vec2_vec2.
Proof. agree c_fma_vec2_vec2_vec2. Qed.
Lemma so_fma_vec2_vec2_vec2 : sound fma_vec2_vec2_vec2.
Proof. sound c_fma_vec2_vec2_vec2. Qed.
Lemma ag_fract_vec2 : agrees fract_vec2.
Proof. agree c_fract_vec2. Qed.
Lemma so_fract_vec2 : sound fract_vec2.
Proof. sound c_fract_vec2. Qed.
Lemma ag_max_vec2_vec2 : agrees max_vec2_vec2.
Proof. agree c_max_vec2_vec2. Qed.
Lemma so_max_vec2_vec2 : sound max_vec2_vec2.
Proof. sound c_max_vec2_vec2. Qed.
Lemma ag_max_ivec2_ivec2 : agrees max_ivec2_ivec2.
Proof. agree c_max_ivec2_ivec2. Qed.
Lemma so_max_ivec2_ivec2 : sound max_ivec2_ivec2.
Proof. sound c_max_ivec2_ivec2. Qed.
Lemma ag_min_vec2_vec2 : agrees min_vec2_vec2.
Proof. agree c_min_vec2_vec2. Qed.
Lemma so_min_vec2_vec2 : sound min_vec2_vec2.
Proof. sound c_min_vec2_vec2. Qed.
Lemma ag_min_ivec2_ivec2 : agrees min_ivec2_ivec2.
Proof. agree c_min_ivec2_ivec2. Qed.
Lemma so_min_ivec2_ivec2 : sound min_ivec2_ivec2.
Proof. sound c_min_ivec2_ivec2. Qed.
Lemma ag_mod_vec2_vec2 : agrees mod_vec2_vec2.
Proof. agree c_mod_vec2_vec2. Qed.
Lemma so_mod_vec2_vec2 : sound mod_vec2_vec2.
Proof. sound c_mod_vec2_vec2. Qed.
Lemma ag_mod_vec3_float : agrees mod_vec3_float.
Proof. agree c_mod_vec3_float. Qed.
Lemma so_mod_vec3_float : sound mod_vec3_float.
Proof. sound c_mod_vec3_float. Qed.
Lemma ag_round_vec3 : agrees round_vec3.
Proof. agree c_round_vec3. Qed.
Lemma so_round_vec3 : sound round_vec3.
Proof. sound c_round_vec3. Qed.
Lemma ag_roundEven_vec3 : agrees roundEven_vec3.
Proof. agree c_roundEven_vec3. Qed.
Lemma so_roundEven_vec3 : sound roundEven_vec3.
Proof. sound c_roundEven_vec3. Qed.
Lemma ag_sign_vec3 : agrees sign_vec3.
Proof. agree c_sign_vec3. Qed.
Lemma so_sign_vec3 : sound sign_vec3.
Proof. sound c_sign_vec3. Qed.
Lemma ag_sign_ivec3 : agrees sign_ivec3.
Proof. agree c_sign_ivec3. Qed.
Lemma so_sign_ivec3 : sound sign_ivec3.
Proof. sound c_sign_ivec3. Qed.
Lemma ag_signNotZero_vec3 : agrees signNotZero_vec3.
Proof. agree c_signNotZero_vec3. Qed.
Lemma so_signNotZero_vec3 : sound signNotZero_vec3.
Proof. sound c_signNotZero_vec3. Qed.
Lemma ag_signNotZero_ivec3 : agrees signNotZero_ivec3.
Proof. agree c_signNotZero_ivec3. Qed.
Lemma so_signNotZero_ivec3 : sound signNotZero_ivec3.
Proof. sound c_signNotZero_ivec3. Qed.
Lemma ag_trunc_vec3 : agrees trunc_vec3.
Proof. agree c_trunc_vec3. Qed.
Lemma so_trunc_vec3 : sound trunc_vec3.
Proof. sound c_trunc_vec3. Qed.
Lemma ag_smoothstep_vec3_vec3_vec3 : agrees smoothstep_vec3_vec3_vec3.
Proof. agree c_smoothstep_vec3_vec3_vec3. Qed.
Lemma so_smoothstep_vec3_vec3_vec3 : sound smoothstep_vec3_vec3_vec3.
Proof. sound c_smoothstep_vec3_vec3_vec3. Qed.
Lemma ag_step_vec3_vec3 : agrees step_vec3_vec3.
Proof. agree c_step_vec3_vec3. Qed.
Lemma so_step_vec3_vec3 : sound step_vec3_vec3.
Proof. sound c_step_vec3_vec3. Qed.
Lemma ag_mix_vec3_vec3_vec3 : agrees mix_vec3_vec3_vec3.
Proof. agree c_mix_vec3_vec3_vec3. Qed.
Lemma so_mix_vec3_vec3_vec3 : sound mix_vec3_vec3_vec3.
Proof. sound c_mix_vec3_vec3_vec3. Qed.
Lemma ag_mix_vec4_vec4_float : agrees mix_vec4_vec4_float.
Proof. agree c_mix_vec4_vec4_float. Qed.
Lemma so_mix_vec4_vec4_float : sound mix_vec4_vec4_float.
Proof. sound c_mix_vec4_vec4_float. Qed.
Lemma ag_mix_vec4_vec4_bvec4 : agrees mix_vec4_vec4_bvec4.
Proof. agree c_mix_vec4_vec4_bvec4. Qed.
Lemma so_mix_vec4_vec4_bvec4 : sound mix_vec4_vec4_bvec4.
Proof. sound c_mix_vec4_vec4_bvec4. Qed.
Lemma ag_isinf_vec4 : agrees isinf_vec4.
Proof. agree c_isinf_vec4. Qed.
Lemma so_isinf_vec4 : sound isinf_vec4.
Proof. sound c_isinf_vec4. Qed.
Lemma ag_isnan_vec3 : agrees isnan_vec3.
Proof. agree c_isnan_vec3. Qed.
Lemma so_isnan_vec3 : sound isnan_vec3.
Proof. sound c_isnan_vec3. Qed.
Lemma ag_lessThan_vec3_vec3 : agrees lessThan_vec3_vec3.
Proof. agree c_lessThan_vec3_vec3. Qed.
Lemma so_lessThan_vec3_vec3 : sound lessThan_vec3_vec3.
Proof. sound c_lessThan_vec3_vec3. Qed.
Lemma ag_lessThanEqual_vec4_vec4 : agrees lessThanEqual_vec4_vec4.
Proof. agree c_lessThanEqual_vec4_vec4. Qed.
Lemma so_lessThanEqual_vec4_vec4 : sound lessThanEqual_vec4_vec4.
Proof. sound c_lessThanEqual_vec4_vec4. Qed.
Lemma ag_greaterThanEqual_vec2_vec2 : agrees greaterThanEqual_vec2_vec2.
Proof. agree c_greaterThanEqual_vec2_vec2. Qed.
Lemma so_greaterThanEqual_vec2_vec2 : sound greaterThanEqual_vec2_vec2.
Proof. sound c_greaterThanEqual_vec2_vec2. Qed.
Lemma ag_equal_vec3_vec3 : agrees equal_vec3_vec3.
Proof. agree c_equal_vec3_vec3. Qed.
Lemma so_equal_vec3_vec3 : sound equal_vec3_vec3.
Proof. sound c_equal_vec3_vec3. Qed.
Lemma ag_equal_bvec3_bvec3 : agrees equal_bvec3_bvec3.
Proof. agree c_equal_bvec3_bvec3. Qed.
Lemma so_equal_bvec3_bvec3 : sound equal_bvec3_bvec3.
Proof. sound c_equal_bvec3_bvec3. Qed.
Lemma ag_notEqual_vec4_vec4 : agrees notEqual_vec4_vec4.
Proof. agree c_notEqual_vec4_vec4. Qed.
Lemma so_notEqual_vec4_vec4 : sound notEqual_vec4_vec4.
Proof. sound c_notEqual_vec4_vec4. Qed.
Lemma ag_notEqual_bvec4_bvec4 : agrees notEqual_bvec4_bvec4.
Proof. agree_bool c_notEqual_bvec4_bvec4. Qed.
Lemma so_notEqual_bvec4_bvec4 : sound notEqual_bvec4_bvec4.
Proof. sound c_notEqual_bvec4_bvec4. Qed.
Lemma ag_any_bvec2 : agrees any_bvec2.
Proof. agree c_any_bvec2. Qed.
Lemma so_any_bvec2 : sound any_bvec2.
Proof. sound c_any_bvec2. Qed.
Lemma ag_dot_vec2_vec2 : agrees dot_vec2_vec2.
Proof. agree c_dot_vec2_vec2. Qed.
Lemma so_dot_vec2_vec2 : sound dot_vec2_vec2.
Proof. sound c_dot_vec2_vec2. Qed.
Lemma ag_cross_vec3_vec3 : agrees cross_vec3_vec3.
Proof. agree c_cross_vec3_vec3. Qed.
Lemma so_cross_vec3_vec3 : sound cross_vec3_vec3.
Proof. sound c_cross_vec3_vec3. Qed.
Lemma ag_normalize_quat : agrees normalize_quat.
Proof. agree c_normalize_quat. Qed.
Lemma so_normalize_quat : sound normalize_quat.
Proof. sound c_normalize_quat. Qed.
Lemma ag_distance_vec4_vec4 : agrees distance_vec4_vec4.
Proof. agree c_distance_vec4_vec4. Qed.
Lemma so_distance_vec4_vec4 : sound distance_vec4_vec4.
Proof. sound c_distance_vec4_vec4. Qed.
Lemma ag_faceforward_vec4_vec4_vec4 : agrees faceforward_vec4_vec4_vec4.
Proof. agree c_faceforward_vec4_vec4_vec4. Qed.
Lemma so_faceforward_vec4_vec4_vec4 : sound faceforward_vec4_vec4_vec4.
Proof. sound c_faceforward_vec4_vec4_vec4. Qed.
Lemma ag_reflect_vec4_vec4 : agrees reflect_vec4_vec4.
Proof. agree c_reflect_vec4_vec4. Qed.
Lemma so_reflect_vec4_vec4 : sound reflect_vec4_vec4.
Proof. sound c_reflect_vec4_vec4. Qed.
Lemma ag_refract_vec4_vec4_float : agrees refract_vec4_vec4_float.
Proof. agree c_refract_vec4_vec4_float. Qed.
Lemma so_refract_vec4_vec4_float : sound refract_vec4_vec4_float.
Proof. sound c_refract_vec4_vec4_float. Qed.
Lemma ag_length_vec4 : agrees length_vec4.
Proof. agree c_length_vec4. Qed.
Lemma so_length_vec4 : sound length_vec4.
Proof. sound c_length_vec4. Qed.
Lemma ag_length2_vec3 : agrees length2_vec3.
Proof. agree c_length2_vec3. Qed.
Lemma so_length2_vec3 : sound length2_vec3.
Proof. sound c_length2_vec3. Qed.
Lemma ag_distance2_vec2_vec2 : agrees distance2_vec2_vec2.
Proof. agree c_distance2_vec2_vec2. Qed.
Lemma so_distance2_vec2_vec2 : sound distance2_vec2_vec2.
Proof. sound c_distance2_vec2_vec2. Qed.
Lemma ag_orthogonal_branchless_vec3 : agrees orthogonal_branchless_vec3.
Proof. agree c_orthogonal_branchless_vec3. Qed.
Lemma so_orthogonal_branchless_vec3 : sound orthogonal_branchless_vec3.
Proof. sound c_orthogonal_branchless_vec3. Qed.
Lemma ag_sqrt_vec2 : agrees sqrt_vec2.
Proof. agree c_sqrt_vec2. Qed.
Lemma so_sqrt_vec2 : sound sqrt_vec2.
Proof. sound c_sqrt_vec2. Qed.
Lemma ag_pow_float_float : agrees pow_float_float.
Proof. agree c_pow_float_float. Qed.
Lemma so_pow_float_float : sound pow_float_float.
Proof. sound c_pow_float_float. Qed.
Lemma ag_pow_quat_float : agrees pow_quat_float.
Proof. agree c_pow_quat_float. Qed.
Lemma so_pow_quat_float : sound pow_quat_float.
Proof. sound c_pow_quat_float. Qed.
Lemma ag_log_vec4 : agrees log_vec4.
Proof. agree c_log_vec4. Qed.
Lemma so_log_vec4 : sound log_vec4.
Proof. sound c_log_vec4. Qed.
Lemma ag_log2_vec3 : agrees log2_vec3.
Proof. agree c_log2_vec3. Qed.
Lemma so_log2_vec3 : sound log2_vec3.
Proof. sound c_log2_vec3. Qed.
Lemma ag_inversesqrt_vec2 : agrees inversesqrt_vec2.
Proof. agree c_inversesqrt_vec2. Qed.
Lemma so_inversesqrt_vec2 : sound inversesqrt_vec2.
Proof. sound c_inversesqrt_vec2. Qed.
Lemma ag_exp_float : agrees exp_float.
Proof. agree c_exp_float. Qed.
Lemma so_exp_float : sound exp_float.
Proof. sound c_exp_float. Qed.
Lemma ag_exp_quat : agrees exp_quat.
Proof. agree c_exp_quat. Qed.
Lemma so_exp_quat : sound exp_quat.
Proof. sound c_exp_quat. Qed.
Lemma ag_exp2_vec4 : agrees exp2_vec4.
Proof. agree c_exp2_vec4. Qed.
Lemma so_exp2_vec4 : sound exp2_vec4.
Proof. sound c_exp2_vec4. Qed.
Lemma ag_cbrt_vec3 : agrees cbrt_vec3.
Proof. agree c_cbrt_vec3. Qed.
Lemma so_cbrt_vec3 : sound cbrt_vec3.
Proof. sound c_cbrt_vec3. Qed.
Lemma ag_radiansf_float : agrees radiansf_float.
Proof. agree c_radiansf_float. Qed.
Lemma so_radiansf_float : sound radiansf_float.
Proof. sound c_radiansf_float. Qed.
Lemma ag_cos_vec4 : agrees cos_vec4.
Proof. agree c_cos_vec4. Qed.
Lemma so_cos_vec4 : sound cos_vec4.
Proof. sound c_cos_vec4. Qed.
Lemma ag_sin_vec4 : agrees sin_vec4.
Proof. agree c_sin_vec4. Qed.
Lemma so_sin_vec4 : sound sin_vec4.
Proof. sound c_sin_vec4. Qed.
Lemma ag_acos_vec4 : agrees acos_vec4.
Proof. agree c_acos_vec4. Qed.
Lemma so_acos_vec4 : sound acos_vec4.
Proof. sound c_acos_vec4. Qed.
Lemma ag_acosh_vec4 : agrees acosh_vec4.
Proof. agree c_acosh_vec4. Qed.
Lemma so_acosh_vec4 : sound acosh_vec4.
Proof. sound c_acosh_vec4. Qed.
Lemma ag_asin_vec4 : agrees asin_vec4.
Proof. agree c_asin_vec4. Qed.
Lemma so_asin_vec4 : sound asin_vec4.
Proof. sound c_asin_vec4. Qed.
Lemma ag_asinh_vec4 : agrees asinh_vec4.
Proof. agree c_asinh_vec4. Qed.
Lemma so_asinh_vec4 : sound asinh_vec4.
Proof. sound c_asinh_vec4. Qed.
Lemma ag_atan_vec4_vec4 : agrees atan_vec4_vec4.
Proof. agree c_atan_vec4_vec4. Qed.
Lemma so_atan_vec4_vec4 : sound atan_vec4_vec4.
Proof. sound c_atan_vec4_vec4. Qed.
Lemma ag_atan_vec4 : agrees atan_vec4.
Proof. agree c_atan_vec4. Qed.
Lemma so_atan_vec4 : sound atan_vec4.
Proof. sound c_atan_vec4. Qed.
Lemma ag_atanh_vec4 : agrees atanh_vec4.
Proof. agree c_atanh_vec4. Qed.
Lemma so_atanh_vec4 : sound atanh_vec4.
Proof. sound c_atanh_vec4. Qed.
Lemma ag_cosh_vec4 : agrees cosh_vec4.
Proof. agree c_cosh_vec4. Qed.
Lemma so_cosh_vec4 : sound cosh_vec4.
Proof. sound c_cosh_vec4. Qed.
Lemma ag_degrees_vec4 : agrees degrees_vec4.
Proof. agree c_degrees_vec4. Qed.
Lemma so_degrees_vec4 : sound degrees_vec4.
Proof. sound c_degrees_vec4. Qed.
Lemma ag_radians_vec4 : agrees radians_vec4.
Proof. agree c_radians_vec4. Qed.
Lemma so_radians_vec4 : sound radians_vec4.
Proof. sound c_radians_vec4. Qed.
Lemma ag_sinh_vec4 : agrees sinh_vec4.
Proof. agree c_sinh_vec4. Qed.
Lemma so_sinh_vec4 : sound sinh_vec4.
Proof. sound c_sinh_vec4. Qed.
Lemma ag_tan_vec4 : agrees tan_vec4.
Proof. agree c_tan_vec4. Qed.
Lemma so_tan_vec4 : sound tan_vec4.
Proof. sound c_tan_vec4. Qed.
Lemma ag_tanh_vec4 : agrees tanh_vec4.
Proof. agree c_tanh_vec4. Qed.
Lemma so_tanh_vec4 : sound tanh_vec4.
Proof. sound c_tanh_vec4. Qed.
Lemma ag_compAdd_ivec2 : agrees compAdd_ivec2.
Proof. agree c_compAdd_ivec2. Qed.
Lemma so_compAdd_ivec2 : sound compAdd_ivec2.
Proof. sound c_compAdd_ivec2. Qed.
Lemma ag_compMul_vec3 : agrees compMul_vec3.
Proof. agree c_compMul_vec3. Qed.
Lemma so_compMul_vec3 : sound compMul_vec3.
Proof. sound c_compMul_vec3. Qed.
Lemma ag_compMul_ivec4 : agrees compMul_ivec4.
Proof. agree c_compMul_ivec4. Qed.
Lemma so_compMul_ivec4 : sound compMul_ivec4.
Proof. sound c_compMul_ivec4. Qed.
Lemma ag_compMin_ivec2 : agrees compMin_ivec2.
Proof. agree c_compMin_ivec2. Qed.
Lemma so_compMin_ivec2 : sound compMin_ivec2.
Proof. sound c_compMin_ivec2. Qed.
Lemma ag_compMax_vec3 : agrees compMax_vec3.
Proof. agree c_compMax_vec3. Qed.
Lemma so_compMax_vec3 : sound compMax_vec3.
Proof. sound c_compMax_vec3. Qed.
Lemma ag_compMax_ivec4 : agrees compMax_ivec4.
Proof. agree c_compMax_ivec4. Qed.
Lemma so_compMax_ivec4 : sound compMax_ivec4.
Proof. sound c_compMax_ivec4. Qed.
Lemma ag_pi : agrees pi.
Proof. agree c_pi. Qed.
Lemma so_pi : sound pi.
Proof. sound c_pi. Qed.
Lemma ag_three_over_two_pi : agrees three_over_two_pi.
Proof. agree c_three_over_two_pi. Qed.
Lemma so_three_over_two_pi : sound three_over_two_pi.
Proof. sound c_three_over_two_pi. Qed.
Lemma ag_two_over_pi : agrees two_over_pi.
Proof. agree c_two_over_pi. Qed.
Lemma so_two_over_pi : sound two_over_pi.
Proof. sound c_two_over_pi. Qed.
Lemma ag_root_half_pi : agrees root_half_pi.
Proof. agree c_root_half_pi. Qed.
Lemma so_root_half_pi : sound root_half_pi.
Proof. sound c_root_half_pi. Qed.
Lemma ag_euler : agrees euler.
Proof. agree c_euler. Qed.
Lemma so_euler : sound euler.
Proof. sound c_euler. Qed.
Lemma ag_ln_two : agrees ln_two.
Proof. agree c_ln_two. Qed.
Lemma so_ln_two : sound ln_two.
Proof. sound c_ln_two. Qed.
Lemma ag_two_thirds : agrees two_thirds.
Proof. agree c_two_thirds. Qed.
Lemma so_two_thirds : sound two_thirds.
Proof. sound c_two_thirds. Qed.
Lemma ag_convertLinearToSRGB_vec3 : agrees convertLinearToSRGB_vec3.
Proof. agree c_convertLinearToSRGB_vec3. Qed.
Lemma so_convertLinearToSRGB_vec3 : sound convertLinearToSRGB_vec3.
Proof. sound c_convertLinearToSRGB_vec3. Qed.
Lemma ag_convertSRGBToLinear_vec3 : agrees convertSRGBToLinear_vec3.
Proof. agree c_convertSRGBToLinear_vec3. Qed.
Lemma so_convertSRGBToLinear_vec3 : sound convertSRGBToLinear_vec3.
Proof. sound c_convertSRGBToLinear_vec3. Qed.
Lemma ag_matrixCompMult_mat4_mat4 : agrees matrixCompMult_mat4_mat4.
Proof. agree c_matrixCompMult_mat4_mat4. Qed.
Lemma so_matrixCompMult_mat4_mat4 : sound matrixCompMult_mat4_mat4.
Proof. sound c_matrixCompMult_mat4_mat4. Qed.
Lemma ag_determinant_mat2 : agrees determinant_mat2.
Proof. agree c_determinant_mat2. Qed.
Lemma so_determinant_mat2 : sound determinant_mat2.
Proof. sound c_determinant_mat2. Qed.
Lemma ag_inverse_mat3 : agrees inverse_mat3.
Proof. agree c_inverse_mat3. Qed.
Lemma so_inverse_mat3 : sound inverse_mat3.
Proof. sound c_inverse_mat3. Qed.
Lemma ag_adjugate_mat4 : agrees adjugate_mat4.
Proof. agree c_adjugate_mat4. Qed.
Lemma so_adjugate_mat4 : sound adjugate_mat4.
Proof. sound c_adjugate_mat4. Qed.
Lemma ag_adjugateTranspose_mat2 : agrees adjugateTranspose_mat2.
Proof. agree c_adjugateTranspose_mat2. Qed.
Lemma so_adjugateTranspose_mat2 : sound adjugateTranspose_mat2.
Proof. sound c_adjugateTranspose_mat2. Qed.
Lemma ag_rotate_mat4_float_vec3 : agrees rotate_mat4_float_vec3.
Proof. agree c_rotate_mat4_float_vec3. Qed.
Lemma so_rotate_mat4_float_vec3 : sound rotate_mat4_float_vec3.
Proof. sound c_rotate_mat4_float_vec3. Qed.
Lemma ag_ortho_float_float_float_float : agrees ortho_float_float_float_float.
Proof. agree c_ortho_float_float_float_float. Qed.
Lemma so_ortho_float_float_float_float : sound ortho_float_float_float_float.
Proof. sound c_ortho_float_float_float_float. Qed.
Lemma ag_orthoRH_NO_float_float_float_float_float_float : agrees orthoRH_NO_float_float_float_float_float_float.
Proof. agree c_orthoRH_NO_float_float_float_float_float_float. Qed.
Lemma so_orthoRH_NO_float_float_float_float_float_float : sound orthoRH_NO_float_float_float_float_float_float.
Proof. sound c_orthoRH_NO_float_float_float_float_float_float. Qed.
Lemma ag_perspectiveLH_NO_float_float_float_float : agrees perspectiveLH_NO_float_float_float_float.
Proof. agree c_perspectiveLH_NO_float_float_float_float. Qed.
Lemma so_perspectiveLH_NO_float_float_float_float : sound perspectiveLH_NO_float_float_float_float.
Proof. sound c_perspectiveLH_NO_float_float_float_float. Qed.
Lemma ag_roll_quat : agrees roll_quat.
Proof. agree c_roll_quat. Qed.
Lemma so_roll_quat : sound roll_quat.
Proof. sound c_roll_quat. Qed.
Lemma ag_quat_cast_mat4 : agrees quat_cast_mat4.
Proof. agree c_quat_cast_mat4. Qed.
Lemma so_quat_cast_mat4 : sound quat_cast_mat4.
Proof. sound c_quat_cast_mat4. Qed.
Lemma ag_inverse_quat : agrees inverse_quat.
Proof. agree c_inverse_quat. Qed.
Lemma so_inverse_quat : sound inverse_quat.
Proof. sound c_inverse_quat. Qed.
Lemma ag_axis_quat : agrees axis_quat.
Proof. agree c_axis_quat. Qed.
Lemma so_axis_quat : sound axis_quat.
Proof. sound c_axis_quat. Qed.
