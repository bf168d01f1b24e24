(** * The source code, statement by statement: matrices, quaternions and scalar functions

    Every definition is the function at the cited lines of /repo, in the syntax of Cpp.v. *)
From Coq Require Import ZArith NArith List String.
From Verif Require Import Cpp CppNames.
Import ListNotations.
Local Open Scope string_scope.
Local Open Scope cpp_scope.

(** ** src/mat2.cpp *)
(** src/mat2.cpp 10-11 *)
Definition c_mat2__default : fundef fn := Fun [] [] (RVal (Tcls Cmat2)) [] (
  Decl "this" (Some (Call mat2__float <<Lit 1 0>>));;
  Made).
(** src/mat2.cpp 13-14 *)
Definition c_mat2__no_init_t : fundef fn := Fun [] [] (RVal (Tcls Cmat2)) [] (
  Decl "this" (Some (New Cmat2 <<Call vec2__default ENil; Call vec2__default ENil>>));;
  Made).
(** src/mat2.cpp 16-20 *)
Definition c_mat2__float : fundef fn := Fun ["value"] [Tfloat] (RVal (Tcls Cmat2)) [] (
  Decl "this" (Some (New Cmat2 <<Call vec2__default ENil; Call vec2__default ENil>>));;
  Assign (LFld (LVar "this") 0) (Call vec2__float_float <<Var "value"; Lit 0 0>>);;
  Assign (LFld (LVar "this") 1) (Call vec2__float_float <<Lit 0 0; Var "value">>);;
  Made).
(** src/mat2.cpp 22-28 *)
Definition c_mat2__float_float_float_float : fundef fn := Fun ["a00"; "a01"; "a10"; "a11"] [Tfloat; Tfloat; Tfloat; Tfloat] (RVal (Tcls Cmat2)) [] (
  Decl "this" (Some (New Cmat2 <<Call vec2__default ENil; Call vec2__default ENil>>));;
  Assign (LFld (LFld (LVar "this") 0) 0) (Var "a00");;
  Assign (LFld (LFld (LVar "this") 0) 1) (Var "a01");;
  Assign (LFld (LFld (LVar "this") 1) 0) (Var "a10");;
  Assign (LFld (LFld (LVar "this") 1) 1) (Var "a11");;
  Made).
(** src/mat2.cpp 30-34 *)
Definition c_mat2__vec2_vec2 : fundef fn := Fun ["col0"; "col1"] [Tcls Cvec2; Tcls Cvec2] (RVal (Tcls Cmat2)) [] (
  Decl "this" (Some (New Cmat2 <<Call vec2__default ENil; Call vec2__default ENil>>));;
  Assign (LFld (LVar "this") 0) (Var "col0");;
  Assign (LFld (LVar "this") 1) (Var "col1");;
  Made).
(** src/mat2.cpp 36-40 *)
Definition c_mat2__index : fundef fn := Fun ["this"; "pos"] [Tcls Cmat2; Tuint] (RRef (Tcls Cvec2)) [] (
  Assert (Bin Olt (Var "pos") (UInt 2));;
  ReturnRef (LSub (LVar "this") (Var "pos"))).
(** src/mat2.cpp 42-46 *)
Definition c_mat2__index_const : fundef fn := Fun ["this"; "pos"] [Tcls Cmat2; Tuint] (RVal (Tcls Cvec2)) [] (
  Assert (Bin Olt (Var "pos") (UInt 2));;
  Return (Read (LSub (LVar "this") (Var "pos")))).
(** src/mat2.cpp 48-52 *)
Definition c_op_add_mat2_mat2 : fundef fn := Fun ["first"; "second"] [Tcls Cmat2; Tcls Cmat2] (RVal (Tcls Cmat2)) [] (
  Return (Call mat2__vec2_vec2 <<Call op_add_vec2_vec2 <<Call mat2__index_const <<Var "first"; UInt 0>>; Call mat2__index_const <<Var "second"; UInt
    0>>>>; Call op_add_vec2_vec2 <<Call mat2__index_const <<Var "first"; UInt 1>>; Call mat2__index_const <<Var "second"; UInt 1>>>>>>)).
(** src/mat2.cpp 54-58 *)
Definition c_op_sub_mat2_mat2 : fundef fn := Fun ["first"; "second"] [Tcls Cmat2; Tcls Cmat2] (RVal (Tcls Cmat2)) [] (
  Return (Call mat2__vec2_vec2 <<Call op_sub_vec2_vec2 <<Call mat2__index_const <<Var "first"; UInt 0>>; Call mat2__index_const <<Var "second"; UInt
    0>>>>; Call op_sub_vec2_vec2 <<Call mat2__index_const <<Var "first"; UInt 1>>; Call mat2__index_const <<Var "second"; UInt 1>>>>>>)).
(** src/mat2.cpp 60-64 *)
Definition c_op_sub_mat2 : fundef fn := Fun ["first"] [Tcls Cmat2] (RVal (Tcls Cmat2)) [] (
  Return (Call mat2__vec2_vec2 <<Call op_sub_vec2 <<Call mat2__index_const <<Var "first"; UInt 0>>>>; Call op_sub_vec2 <<Call mat2__index_const <<Var
    "first"; UInt 1>>>>>>)).
(** src/mat2.cpp 66-69 *)
Definition c_op_add_mat2 : fundef fn := Fun ["first"] [Tcls Cmat2] (RVal (Tcls Cmat2)) [] (
  Return (Var "first")).
(** src/mat2.cpp 72-79 *)
Definition c_op_mul_mat2_mat2 : fundef fn := Fun ["m1"; "m2"] [Tcls Cmat2; Tcls Cmat2] (RVal (Tcls Cmat2)) [] (
  Return (Call mat2__float_float_float_float <<Bin Oadd (Bin Omul (Read (LIdx vec2__index (LTmp (Call mat2__index_const <<Var "m1"; UInt 0>>)) (UInt
    0))) (Read (LIdx vec2__index (LTmp (Call mat2__index_const <<Var "m2"; UInt 0>>)) (UInt 0)))) (Bin Omul (Read (LIdx vec2__index (LTmp (Call
    mat2__index_const <<Var "m1"; UInt 1>>)) (UInt 0))) (Read (LIdx vec2__index (LTmp (Call mat2__index_const <<Var "m2"; UInt 0>>)) (UInt 1)))); Bin
    Oadd (Bin Omul (Read (LIdx vec2__index (LTmp (Call mat2__index_const <<Var "m1"; UInt 0>>)) (UInt 1))) (Read (LIdx vec2__index (LTmp (Call
    mat2__index_const <<Var "m2"; UInt 0>>)) (UInt 0)))) (Bin Omul (Read (LIdx vec2__index (LTmp (Call mat2__index_const <<Var "m1"; UInt 1>>)) (UInt
    1))) (Read (LIdx vec2__index (LTmp (Call mat2__index_const <<Var "m2"; UInt 0>>)) (UInt 1)))); Bin Oadd (Bin Omul (Read (LIdx vec2__index (LTmp
    (Call mat2__index_const <<Var "m1"; UInt 0>>)) (UInt 0))) (Read (LIdx vec2__index (LTmp (Call mat2__index_const <<Var "m2"; UInt 1>>)) (UInt 0))))
    (Bin Omul (Read (LIdx vec2__index (LTmp (Call mat2__index_const <<Var "m1"; UInt 1>>)) (UInt 0))) (Read (LIdx vec2__index (LTmp (Call
    mat2__index_const <<Var "m2"; UInt 1>>)) (UInt 1)))); Bin Oadd (Bin Omul (Read (LIdx vec2__index (LTmp (Call mat2__index_const <<Var "m1"; UInt
    0>>)) (UInt 1))) (Read (LIdx vec2__index (LTmp (Call mat2__index_const <<Var "m2"; UInt 1>>)) (UInt 0)))) (Bin Omul (Read (LIdx vec2__index (LTmp
    (Call mat2__index_const <<Var "m1"; UInt 1>>)) (UInt 1))) (Read (LIdx vec2__index (LTmp (Call mat2__index_const <<Var "m2"; UInt 1>>)) (UInt
    1))))>>)).
(** src/mat2.cpp 82-85 *)
Definition c_op_div_mat2_mat2 : fundef fn := Fun ["first"; "second"] [Tcls Cmat2; Tcls Cmat2] (RVal (Tcls Cmat2)) [] (
  Return (Call op_mul_mat2_mat2 <<Var "first"; Call inverse_mat2 <<Var "second">>>>)).
(** src/mat2.cpp 88-92 *)
Definition c_op_mul_mat2_float : fundef fn := Fun ["mat"; "scalar"] [Tcls Cmat2; Tfloat] (RVal (Tcls Cmat2)) [] (
  Return (Call mat2__vec2_vec2 <<Call op_mul_vec2_float <<Call mat2__index_const <<Var "mat"; UInt 0>>; Var "scalar">>; Call op_mul_vec2_float <<Call
    mat2__index_const <<Var "mat"; UInt 1>>; Var "scalar">>>>)).
(** src/mat2.cpp 94-98 *)
Definition c_op_div_mat2_float : fundef fn := Fun ["mat"; "scalar"] [Tcls Cmat2; Tfloat] (RVal (Tcls Cmat2)) [] (
  Return (Call mat2__vec2_vec2 <<Call op_div_vec2_float <<Call mat2__index_const <<Var "mat"; UInt 0>>; Var "scalar">>; Call op_div_vec2_float <<Call
    mat2__index_const <<Var "mat"; UInt 1>>; Var "scalar">>>>)).
(** src/mat2.cpp 100-104 *)
Definition c_op_mul_float_mat2 : fundef fn := Fun ["scalar"; "mat"] [Tfloat; Tcls Cmat2] (RVal (Tcls Cmat2)) [] (
  Return (Call mat2__vec2_vec2 <<Call op_mul_float_vec2 <<Var "scalar"; Call mat2__index_const <<Var "mat"; UInt 0>>>>; Call op_mul_float_vec2 <<Var
    "scalar"; Call mat2__index_const <<Var "mat"; UInt 1>>>>>>)).
(** src/mat2.cpp 106-110 *)
Definition c_op_div_float_mat2 : fundef fn := Fun ["scalar"; "mat"] [Tfloat; Tcls Cmat2] (RVal (Tcls Cmat2)) [] (
  Return (Call mat2__vec2_vec2 <<Call op_div_float_vec2 <<Var "scalar"; Call mat2__index_const <<Var "mat"; UInt 0>>>>; Call op_div_float_vec2 <<Var
    "scalar"; Call mat2__index_const <<Var "mat"; UInt 1>>>>>>)).
(** src/mat2.cpp 112-116 *)
Definition c_op_mul_mat2_vec2 : fundef fn := Fun ["m"; "v"] [Tcls Cmat2; Tcls Cvec2] (RVal (Tcls Cvec2)) [] (
  Return (Call vec2__float_float <<Bin Oadd (Bin Omul (Read (LIdx vec2__index (LTmp (Call mat2__index_const <<Var "m"; UInt 0>>)) (UInt 0))) (Read (LFld
    (LVar "v") 0))) (Bin Omul (Read (LIdx vec2__index (LTmp (Call mat2__index_const <<Var "m"; UInt 1>>)) (UInt 0))) (Read (LFld (LVar "v") 1))); Bin
    Oadd (Bin Omul (Read (LIdx vec2__index (LTmp (Call mat2__index_const <<Var "m"; UInt 0>>)) (UInt 1))) (Read (LFld (LVar "v") 0))) (Bin Omul (Read
    (LIdx vec2__index (LTmp (Call mat2__index_const <<Var "m"; UInt 1>>)) (UInt 1))) (Read (LFld (LVar "v") 1)))>>)).
(** src/mat2.cpp 118-122 *)
Definition c_op_mul_vec2_mat2 : fundef fn := Fun ["v"; "m"] [Tcls Cvec2; Tcls Cmat2] (RVal (Tcls Cvec2)) [] (
  Return (Call vec2__float_float <<Bin Oadd (Bin Omul (Read (LFld (LVar "v") 0)) (Read (LIdx vec2__index (LTmp (Call mat2__index_const <<Var "m"; UInt
    0>>)) (UInt 0)))) (Bin Omul (Read (LFld (LVar "v") 1)) (Read (LIdx vec2__index (LTmp (Call mat2__index_const <<Var "m"; UInt 0>>)) (UInt 1))));
    Bin Oadd (Bin Omul (Read (LFld (LVar "v") 0)) (Read (LIdx vec2__index (LTmp (Call mat2__index_const <<Var "m"; UInt 1>>)) (UInt 0)))) (Bin Omul
    (Read (LFld (LVar "v") 1)) (Read (LIdx vec2__index (LTmp (Call mat2__index_const <<Var "m"; UInt 1>>)) (UInt 1))))>>)).
(** src/mat2.cpp 124-127 *)
Definition c_op_div_mat2_vec2 : fundef fn := Fun ["mat"; "vec"] [Tcls Cmat2; Tcls Cvec2] (RVal (Tcls Cvec2)) [] (
  Return (Call op_mul_mat2_vec2 <<Call inverse_mat2 <<Var "mat">>; Var "vec">>)).
(** src/mat2.cpp 129-132 *)
Definition c_op_div_vec2_mat2 : fundef fn := Fun ["vec"; "mat"] [Tcls Cvec2; Tcls Cmat2] (RVal (Tcls Cvec2)) [] (
  Return (Call op_mul_vec2_mat2 <<Var "vec"; Call inverse_mat2 <<Var "mat">>>>)).
(** src/mat2.cpp 134-137 *)
Definition c_mat2__op_add_assign_mat2 : fundef fn := Fun ["this"; "first"] [Tcls Cmat2; Tcls Cmat2] RVoid ["this"] (
  Assign (LVar "this") (Call op_add_mat2_mat2 <<Var "this"; Var "first">>)).
(** src/mat2.cpp 139-142 *)
Definition c_mat2__op_sub_assign_mat2 : fundef fn := Fun ["this"; "first"] [Tcls Cmat2; Tcls Cmat2] RVoid ["this"] (
  Assign (LVar "this") (Call op_sub_mat2_mat2 <<Var "this"; Var "first">>)).
(** src/mat2.cpp 144-147 *)
Definition c_mat2__op_mul_assign_mat2 : fundef fn := Fun ["this"; "first"] [Tcls Cmat2; Tcls Cmat2] RVoid ["this"] (
  Assign (LVar "this") (Call op_mul_mat2_mat2 <<Var "this"; Var "first">>)).
(** src/mat2.cpp 149-152 *)
Definition c_mat2__op_div_assign_mat2 : fundef fn := Fun ["this"; "first"] [Tcls Cmat2; Tcls Cmat2] RVoid ["this"] (
  Assign (LVar "this") (Call op_div_mat2_mat2 <<Var "this"; Var "first">>)).
(** src/mat2.cpp 154-157 *)
Definition c_op_eq_mat2_mat2 : fundef fn := Fun ["first"; "second"] [Tcls Cmat2; Tcls Cmat2] (RVal Tbool) [] (
  Return (And (Call op_eq_vec2_vec2 <<Call mat2__index_const <<Var "first"; UInt 0>>; Call mat2__index_const <<Var "second"; UInt 0>>>>) (Call
    op_eq_vec2_vec2 <<Call mat2__index_const <<Var "first"; UInt 1>>; Call mat2__index_const <<Var "second"; UInt 1>>>>))).
(** src/mat2.cpp 159-162 *)
Definition c_op_ne_mat2_mat2 : fundef fn := Fun ["first"; "second"] [Tcls Cmat2; Tcls Cmat2] (RVal Tbool) [] (
  Return (Un Onot (Call op_eq_mat2_mat2 <<Var "first"; Var "second">>))).
(** src/mat2.cpp 166-173 *)
Definition c_make_mat2_float_ptr : fundef fn := Fun ["ptr"] [Tptr Tfloat] (RVal (Tcls Cmat2)) [] (
  Assert (Conv Tbool (Var "ptr"));;
  Return (Call mat2__float_float_float_float <<Deref (Var "ptr") 0; Deref (Var "ptr") 1; Deref (Var "ptr") 2; Deref (Var "ptr") 3>>)).

(** ** src/mat3.cpp *)
(** src/mat3.cpp 10-11 *)
Definition c_mat3__default : fundef fn := Fun [] [] (RVal (Tcls Cmat3)) [] (
  Decl "this" (Some (Call mat3__float <<Lit 1 0>>));;
  Made).
(** src/mat3.cpp 13-14 *)
Definition c_mat3__no_init_t : fundef fn := Fun [] [] (RVal (Tcls Cmat3)) [] (
  Decl "this" (Some (New Cmat3 <<Call vec3__default ENil; Call vec3__default ENil; Call vec3__default ENil>>));;
  Made).
(** src/mat3.cpp 16-21 *)
Definition c_mat3__float : fundef fn := Fun ["value"] [Tfloat] (RVal (Tcls Cmat3)) [] (
  Decl "this" (Some (New Cmat3 <<Call vec3__default ENil; Call vec3__default ENil; Call vec3__default ENil>>));;
  Assign (LFld (LVar "this") 0) (Call vec3__float_float_float <<Var "value"; Lit 0 0; Lit 0 0>>);;
  Assign (LFld (LVar "this") 1) (Call vec3__float_float_float <<Lit 0 0; Var "value"; Lit 0 0>>);;
  Assign (LFld (LVar "this") 2) (Call vec3__float_float_float <<Lit 0 0; Lit 0 0; Var "value">>);;
  Made).
(** src/mat3.cpp 23-28 *)
Definition c_mat3__mat2 : fundef fn := Fun ["m2"] [Tcls Cmat2] (RVal (Tcls Cmat3)) [] (
  Decl "this" (Some (New Cmat3 <<Call vec3__default ENil; Call vec3__default ENil; Call vec3__default ENil>>));;
  Assign (LFld (LVar "this") 0) (Call vec3__float_float_float <<Read (LFld (LTmp (Call mat2__index_const <<Var "m2"; UInt 0>>)) 0); Read (LFld (LTmp
    (Call mat2__index_const <<Var "m2"; UInt 0>>)) 1); Lit 0 0>>);;
  Assign (LFld (LVar "this") 1) (Call vec3__float_float_float <<Read (LFld (LTmp (Call mat2__index_const <<Var "m2"; UInt 1>>)) 0); Read (LFld (LTmp
    (Call mat2__index_const <<Var "m2"; UInt 1>>)) 1); Lit 0 0>>);;
  Assign (LFld (LVar "this") 2) (Call vec3__float_float_float <<Read (LFld (LTmp (Call mat2__index_const <<Var "m2"; UInt 2>>)) 0); Read (LFld (LTmp
    (Call mat2__index_const <<Var "m2"; UInt 2>>)) 1); Lit 1 0>>);;
  Made).
(** src/mat3.cpp 30-33 *)
Definition c_mat3__to_mat2 : fundef fn := Fun ["this"] [Tcls Cmat3] (RVal (Tcls Cmat2)) [] (
  Return (Call mat2__float_float_float_float <<Read (LFld (LFld (LVar "this") 0) 0); Read (LFld (LFld (LVar "this") 0) 1); Read (LFld (LFld (LVar
    "this") 1) 0); Read (LFld (LFld (LVar "this") 1) 1)>>)).
(** src/mat3.cpp 36-41 *)
Definition c_mat3__vec3_vec3_vec3 : fundef fn := Fun ["c0"; "c1"; "c2"] [Tcls Cvec3; Tcls Cvec3; Tcls Cvec3] (RVal (Tcls Cmat3)) [] (
  Decl "this" (Some (New Cmat3 <<Call vec3__default ENil; Call vec3__default ENil; Call vec3__default ENil>>));;
  Assign (LFld (LVar "this") 0) (Var "c0");;
  Assign (LFld (LVar "this") 1) (Var "c1");;
  Assign (LFld (LVar "this") 2) (Var "c2");;
  Made).
(** src/mat3.cpp 43-48 *)
Definition c_mat3__float_float_float_float_float_float_float_float_float : fundef fn := Fun ["c00"; "c01"; "c02"; "c10"; "c11"; "c12"; "c20"; "c21"; "c22"] [Tfloat; Tfloat; Tfloat; Tfloat; Tfloat; Tfloat; Tfloat; Tfloat; Tfloat] (RVal (Tcls Cmat3)) [] (
  Decl "this" (Some (New Cmat3 <<Call vec3__default ENil; Call vec3__default ENil; Call vec3__default ENil>>));;
  Assign (LFld (LVar "this") 0) (Call vec3__float_float_float <<Var "c00"; Var "c01"; Var "c02">>);;
  Assign (LFld (LVar "this") 1) (Call vec3__float_float_float <<Var "c10"; Var "c11"; Var "c12">>);;
  Assign (LFld (LVar "this") 2) (Call vec3__float_float_float <<Var "c20"; Var "c21"; Var "c22">>);;
  Made).
(** src/mat3.cpp 50-55 *)
Definition c_op_add_mat3_mat3 : fundef fn := Fun ["first"; "second"] [Tcls Cmat3; Tcls Cmat3] (RVal (Tcls Cmat3)) [] (
  Return (Call mat3__vec3_vec3_vec3 <<Call op_add_vec3_vec3 <<Call mat3__index_const <<Var "first"; UInt 0>>; Call mat3__index_const <<Var "second";
    UInt 0>>>>; Call op_add_vec3_vec3 <<Call mat3__index_const <<Var "first"; UInt 1>>; Call mat3__index_const <<Var "second"; UInt 1>>>>; Call
    op_add_vec3_vec3 <<Call mat3__index_const <<Var "first"; UInt 2>>; Call mat3__index_const <<Var "second"; UInt 2>>>>>>)).
(** src/mat3.cpp 57-62 *)
Definition c_op_sub_mat3_mat3 : fundef fn := Fun ["first"; "second"] [Tcls Cmat3; Tcls Cmat3] (RVal (Tcls Cmat3)) [] (
  Return (Call mat3__vec3_vec3_vec3 <<Call op_sub_vec3_vec3 <<Call mat3__index_const <<Var "first"; UInt 0>>; Call mat3__index_const <<Var "second";
    UInt 0>>>>; Call op_sub_vec3_vec3 <<Call mat3__index_const <<Var "first"; UInt 1>>; Call mat3__index_const <<Var "second"; UInt 1>>>>; Call
    op_sub_vec3_vec3 <<Call mat3__index_const <<Var "first"; UInt 2>>; Call mat3__index_const <<Var "second"; UInt 2>>>>>>)).
(** src/mat3.cpp 64-69 *)
Definition c_op_sub_mat3 : fundef fn := Fun ["first"] [Tcls Cmat3] (RVal (Tcls Cmat3)) [] (
  Return (Call mat3__vec3_vec3_vec3 <<Call op_sub_vec3 <<Call mat3__index_const <<Var "first"; UInt 0>>>>; Call op_sub_vec3 <<Call mat3__index_const
    <<Var "first"; UInt 1>>>>; Call op_sub_vec3 <<Call mat3__index_const <<Var "first"; UInt 2>>>>>>)).
(** src/mat3.cpp 71-74 *)
Definition c_op_add_mat3 : fundef fn := Fun ["first"] [Tcls Cmat3] (RVal (Tcls Cmat3)) [] (
  Return (Var "first")).
(** src/mat3.cpp 94-127 *)
Definition c_op_mul_mat3_mat3 : fundef fn := Fun ["m1"; "m2"] [Tcls Cmat3; Tcls Cmat3] (RVal (Tcls Cmat3)) [] (
  Decl "SrcA00" (Some (Call vec3__index_const <<Call mat3__index_const <<Var "m1"; UInt 0>>; UInt 0>>));;
  Decl "SrcA01" (Some (Call vec3__index_const <<Call mat3__index_const <<Var "m1"; UInt 0>>; UInt 1>>));;
  Decl "SrcA02" (Some (Call vec3__index_const <<Call mat3__index_const <<Var "m1"; UInt 0>>; UInt 2>>));;
  Decl "SrcA10" (Some (Call vec3__index_const <<Call mat3__index_const <<Var "m1"; UInt 1>>; UInt 0>>));;
  Decl "SrcA11" (Some (Call vec3__index_const <<Call mat3__index_const <<Var "m1"; UInt 1>>; UInt 1>>));;
  Decl "SrcA12" (Some (Call vec3__index_const <<Call mat3__index_const <<Var "m1"; UInt 1>>; UInt 2>>));;
  Decl "SrcA20" (Some (Call vec3__index_const <<Call mat3__index_const <<Var "m1"; UInt 2>>; UInt 0>>));;
  Decl "SrcA21" (Some (Call vec3__index_const <<Call mat3__index_const <<Var "m1"; UInt 2>>; UInt 1>>));;
  Decl "SrcA22" (Some (Call vec3__index_const <<Call mat3__index_const <<Var "m1"; UInt 2>>; UInt 2>>));;
  Decl "SrcB00" (Some (Call vec3__index_const <<Call mat3__index_const <<Var "m2"; UInt 0>>; UInt 0>>));;
  Decl "SrcB01" (Some (Call vec3__index_const <<Call mat3__index_const <<Var "m2"; UInt 0>>; UInt 1>>));;
  Decl "SrcB02" (Some (Call vec3__index_const <<Call mat3__index_const <<Var "m2"; UInt 0>>; UInt 2>>));;
  Decl "SrcB10" (Some (Call vec3__index_const <<Call mat3__index_const <<Var "m2"; UInt 1>>; UInt 0>>));;
  Decl "SrcB11" (Some (Call vec3__index_const <<Call mat3__index_const <<Var "m2"; UInt 1>>; UInt 1>>));;
  Decl "SrcB12" (Some (Call vec3__index_const <<Call mat3__index_const <<Var "m2"; UInt 1>>; UInt 2>>));;
  Decl "SrcB20" (Some (Call vec3__index_const <<Call mat3__index_const <<Var "m2"; UInt 2>>; UInt 0>>));;
  Decl "SrcB21" (Some (Call vec3__index_const <<Call mat3__index_const <<Var "m2"; UInt 2>>; UInt 1>>));;
  Decl "SrcB22" (Some (Call vec3__index_const <<Call mat3__index_const <<Var "m2"; UInt 2>>; UInt 2>>));;
  Decl "Result" (Some (Call mat3__default ENil));;
  Assign (LIdx vec3__index (LIdx mat3__index (LVar "Result") (UInt 0)) (UInt 0)) (Bin Oadd (Bin Oadd (Bin Omul (Var "SrcA00") (Var "SrcB00")) (Bin Omul
    (Var "SrcA10") (Var "SrcB01"))) (Bin Omul (Var "SrcA20") (Var "SrcB02")));;
  Assign (LIdx vec3__index (LIdx mat3__index (LVar "Result") (UInt 0)) (UInt 1)) (Bin Oadd (Bin Oadd (Bin Omul (Var "SrcA01") (Var "SrcB00")) (Bin Omul
    (Var "SrcA11") (Var "SrcB01"))) (Bin Omul (Var "SrcA21") (Var "SrcB02")));;
  Assign (LIdx vec3__index (LIdx mat3__index (LVar "Result") (UInt 0)) (UInt 2)) (Bin Oadd (Bin Oadd (Bin Omul (Var "SrcA02") (Var "SrcB00")) (Bin Omul
    (Var "SrcA12") (Var "SrcB01"))) (Bin Omul (Var "SrcA22") (Var "SrcB02")));;
  Assign (LIdx vec3__index (LIdx mat3__index (LVar "Result") (UInt 1)) (UInt 0)) (Bin Oadd (Bin Oadd (Bin Omul (Var "SrcA00") (Var "SrcB10")) (Bin Omul
    (Var "SrcA10") (Var "SrcB11"))) (Bin Omul (Var "SrcA20") (Var "SrcB12")));;
  Assign (LIdx vec3__index (LIdx mat3__index (LVar "Result") (UInt 1)) (UInt 1)) (Bin Oadd (Bin Oadd (Bin Omul (Var "SrcA01") (Var "SrcB10")) (Bin Omul
    (Var "SrcA11") (Var "SrcB11"))) (Bin Omul (Var "SrcA21") (Var "SrcB12")));;
  Assign (LIdx vec3__index (LIdx mat3__index (LVar "Result") (UInt 1)) (UInt 2)) (Bin Oadd (Bin Oadd (Bin Omul (Var "SrcA02") (Var "SrcB10")) (Bin Omul
    (Var "SrcA12") (Var "SrcB11"))) (Bin Omul (Var "SrcA22") (Var "SrcB12")));;
  Assign (LIdx vec3__index (LIdx mat3__index (LVar "Result") (UInt 2)) (UInt 0)) (Bin Oadd (Bin Oadd (Bin Omul (Var "SrcA00") (Var "SrcB20")) (Bin Omul
    (Var "SrcA10") (Var "SrcB21"))) (Bin Omul (Var "SrcA20") (Var "SrcB22")));;
  Assign (LIdx vec3__index (LIdx mat3__index (LVar "Result") (UInt 2)) (UInt 1)) (Bin Oadd (Bin Oadd (Bin Omul (Var "SrcA01") (Var "SrcB20")) (Bin Omul
    (Var "SrcA11") (Var "SrcB21"))) (Bin Omul (Var "SrcA21") (Var "SrcB22")));;
  Assign (LIdx vec3__index (LIdx mat3__index (LVar "Result") (UInt 2)) (UInt 2)) (Bin Oadd (Bin Oadd (Bin Omul (Var "SrcA02") (Var "SrcB20")) (Bin Omul
    (Var "SrcA12") (Var "SrcB21"))) (Bin Omul (Var "SrcA22") (Var "SrcB22")));;
  Return (Var "Result")).
(** src/mat3.cpp 129-132 *)
Definition c_op_div_mat3_mat3 : fundef fn := Fun ["first"; "second"] [Tcls Cmat3; Tcls Cmat3] (RVal (Tcls Cmat3)) [] (
  Return (Call op_mul_mat3_mat3 <<Var "first"; Call inverse_mat3 <<Var "second">>>>)).
(** src/mat3.cpp 134-139 *)
Definition c_op_mul_mat3_float : fundef fn := Fun ["mat"; "scalar"] [Tcls Cmat3; Tfloat] (RVal (Tcls Cmat3)) [] (
  Return (Call mat3__vec3_vec3_vec3 <<Call op_mul_vec3_float <<Call mat3__index_const <<Var "mat"; UInt 0>>; Var "scalar">>; Call op_mul_vec3_float
    <<Call mat3__index_const <<Var "mat"; UInt 1>>; Var "scalar">>; Call op_mul_vec3_float <<Call mat3__index_const <<Var "mat"; UInt 2>>; Var
    "scalar">>>>)).
(** src/mat3.cpp 141-146 *)
Definition c_op_div_mat3_float : fundef fn := Fun ["mat"; "scalar"] [Tcls Cmat3; Tfloat] (RVal (Tcls Cmat3)) [] (
  Return (Call mat3__vec3_vec3_vec3 <<Call op_div_vec3_float <<Call mat3__index_const <<Var "mat"; UInt 0>>; Var "scalar">>; Call op_div_vec3_float
    <<Call mat3__index_const <<Var "mat"; UInt 1>>; Var "scalar">>; Call op_div_vec3_float <<Call mat3__index_const <<Var "mat"; UInt 2>>; Var
    "scalar">>>>)).
(** src/mat3.cpp 148-153 *)
Definition c_op_mul_float_mat3 : fundef fn := Fun ["scalar"; "mat"] [Tfloat; Tcls Cmat3] (RVal (Tcls Cmat3)) [] (
  Return (Call mat3__vec3_vec3_vec3 <<Call op_mul_float_vec3 <<Var "scalar"; Call mat3__index_const <<Var "mat"; UInt 0>>>>; Call op_mul_float_vec3
    <<Var "scalar"; Call mat3__index_const <<Var "mat"; UInt 1>>>>; Call op_mul_float_vec3 <<Var "scalar"; Call mat3__index_const <<Var "mat"; UInt
    2>>>>>>)).
(** src/mat3.cpp 155-160 *)
Definition c_op_div_float_mat3 : fundef fn := Fun ["scalar"; "mat"] [Tfloat; Tcls Cmat3] (RVal (Tcls Cmat3)) [] (
  Return (Call mat3__vec3_vec3_vec3 <<Call op_div_float_vec3 <<Var "scalar"; Call mat3__index_const <<Var "mat"; UInt 0>>>>; Call op_div_float_vec3
    <<Var "scalar"; Call mat3__index_const <<Var "mat"; UInt 1>>>>; Call op_div_float_vec3 <<Var "scalar"; Call mat3__index_const <<Var "mat"; UInt
    2>>>>>>)).
(** src/mat3.cpp 162-166 *)
Definition c_mat3__index : fundef fn := Fun ["this"; "pos"] [Tcls Cmat3; Tuint] (RRef (Tcls Cvec3)) [] (
  Assert (Bin Olt (Var "pos") (UInt 3));;
  ReturnRef (LSub (LVar "this") (Var "pos"))).
(** src/mat3.cpp 168-172 *)
Definition c_mat3__index_const : fundef fn := Fun ["this"; "pos"] [Tcls Cmat3; Tuint] (RVal (Tcls Cvec3)) [] (
  Assert (Bin Olt (Var "pos") (UInt 3));;
  Return (Read (LSub (LVar "this") (Var "pos")))).
(** src/mat3.cpp 174-177 *)
Definition c_mat3__op_add_assign_mat3 : fundef fn := Fun ["this"; "first"] [Tcls Cmat3; Tcls Cmat3] RVoid ["this"] (
  Assign (LVar "this") (Call op_add_mat3_mat3 <<Var "this"; Var "first">>)).
(** src/mat3.cpp 179-182 *)
Definition c_mat3__op_sub_assign_mat3 : fundef fn := Fun ["this"; "first"] [Tcls Cmat3; Tcls Cmat3] RVoid ["this"] (
  Assign (LVar "this") (Call op_sub_mat3_mat3 <<Var "this"; Var "first">>)).
(** src/mat3.cpp 184-187 *)
Definition c_mat3__op_mul_assign_mat3 : fundef fn := Fun ["this"; "first"] [Tcls Cmat3; Tcls Cmat3] RVoid ["this"] (
  Assign (LVar "this") (Call op_mul_mat3_mat3 <<Var "this"; Var "first">>)).
(** src/mat3.cpp 189-192 *)
Definition c_mat3__op_div_assign_mat3 : fundef fn := Fun ["this"; "first"] [Tcls Cmat3; Tcls Cmat3] RVoid ["this"] (
  Assign (LVar "this") (Call op_div_mat3_mat3 <<Var "this"; Var "first">>)).
(** src/mat3.cpp 194-199 *)
Definition c_op_mul_mat3_vec3 : fundef fn := Fun ["m"; "v"] [Tcls Cmat3; Tcls Cvec3] (RVal (Tcls Cvec3)) [] (
  Return (Call vec3__float_float_float <<Bin Oadd (Bin Oadd (Bin Omul (Call vec3__index_const <<Call mat3__index_const <<Var "m"; UInt 0>>; UInt 0>>)
    (Read (LFld (LVar "v") 0))) (Bin Omul (Call vec3__index_const <<Call mat3__index_const <<Var "m"; UInt 1>>; UInt 0>>) (Read (LFld (LVar "v") 1))))
    (Bin Omul (Call vec3__index_const <<Call mat3__index_const <<Var "m"; UInt 2>>; UInt 0>>) (Read (LFld (LVar "v") 2))); Bin Oadd (Bin Oadd (Bin
    Omul (Call vec3__index_const <<Call mat3__index_const <<Var "m"; UInt 0>>; UInt 1>>) (Read (LFld (LVar "v") 0))) (Bin Omul (Call vec3__index_const
    <<Call mat3__index_const <<Var "m"; UInt 1>>; UInt 1>>) (Read (LFld (LVar "v") 1)))) (Bin Omul (Call vec3__index_const <<Call mat3__index_const
    <<Var "m"; UInt 2>>; UInt 1>>) (Read (LFld (LVar "v") 2))); Bin Oadd (Bin Oadd (Bin Omul (Call vec3__index_const <<Call mat3__index_const <<Var
    "m"; UInt 0>>; UInt 2>>) (Read (LFld (LVar "v") 0))) (Bin Omul (Call vec3__index_const <<Call mat3__index_const <<Var "m"; UInt 1>>; UInt 2>>)
    (Read (LFld (LVar "v") 1)))) (Bin Omul (Call vec3__index_const <<Call mat3__index_const <<Var "m"; UInt 2>>; UInt 2>>) (Read (LFld (LVar "v")
    2)))>>)).
(** src/mat3.cpp 201-206 *)
Definition c_op_mul_vec3_mat3 : fundef fn := Fun ["v"; "m"] [Tcls Cvec3; Tcls Cmat3] (RVal (Tcls Cvec3)) [] (
  Return (Call vec3__float_float_float <<Bin Oadd (Bin Oadd (Bin Omul (Call vec3__index_const <<Call mat3__index_const <<Var "m"; UInt 0>>; UInt 0>>)
    (Read (LFld (LVar "v") 0))) (Bin Omul (Call vec3__index_const <<Call mat3__index_const <<Var "m"; UInt 0>>; UInt 1>>) (Read (LFld (LVar "v") 1))))
    (Bin Omul (Call vec3__index_const <<Call mat3__index_const <<Var "m"; UInt 0>>; UInt 2>>) (Read (LFld (LVar "v") 2))); Bin Oadd (Bin Oadd (Bin
    Omul (Call vec3__index_const <<Call mat3__index_const <<Var "m"; UInt 1>>; UInt 0>>) (Read (LFld (LVar "v") 0))) (Bin Omul (Call vec3__index_const
    <<Call mat3__index_const <<Var "m"; UInt 1>>; UInt 1>>) (Read (LFld (LVar "v") 1)))) (Bin Omul (Call vec3__index_const <<Call mat3__index_const
    <<Var "m"; UInt 1>>; UInt 2>>) (Read (LFld (LVar "v") 2))); Bin Oadd (Bin Oadd (Bin Omul (Call vec3__index_const <<Call mat3__index_const <<Var
    "m"; UInt 2>>; UInt 0>>) (Read (LFld (LVar "v") 0))) (Bin Omul (Call vec3__index_const <<Call mat3__index_const <<Var "m"; UInt 2>>; UInt 1>>)
    (Read (LFld (LVar "v") 1)))) (Bin Omul (Call vec3__index_const <<Call mat3__index_const <<Var "m"; UInt 2>>; UInt 2>>) (Read (LFld (LVar "v")
    2)))>>)).
(** src/mat3.cpp 208-211 *)
Definition c_op_div_mat3_vec3 : fundef fn := Fun ["mat"; "vec"] [Tcls Cmat3; Tcls Cvec3] (RVal (Tcls Cvec3)) [] (
  Return (Call op_mul_mat3_vec3 <<Call inverse_mat3 <<Var "mat">>; Var "vec">>)).
(** src/mat3.cpp 213-216 *)
Definition c_op_div_vec3_mat3 : fundef fn := Fun ["vec"; "mat"] [Tcls Cvec3; Tcls Cmat3] (RVal (Tcls Cvec3)) [] (
  Return (Call op_mul_vec3_mat3 <<Var "vec"; Call inverse_mat3 <<Var "mat">>>>)).
(** src/mat3.cpp 218-221 *)
Definition c_op_eq_mat3_mat3 : fundef fn := Fun ["first"; "second"] [Tcls Cmat3; Tcls Cmat3] (RVal Tbool) [] (
  Return (And (And (Call op_eq_vec3_vec3 <<Call mat3__index_const <<Var "first"; UInt 0>>; Call mat3__index_const <<Var "second"; UInt 0>>>>) (Call
    op_eq_vec3_vec3 <<Call mat3__index_const <<Var "first"; UInt 1>>; Call mat3__index_const <<Var "second"; UInt 1>>>>)) (Call op_eq_vec3_vec3 <<Call
    mat3__index_const <<Var "first"; UInt 2>>; Call mat3__index_const <<Var "second"; UInt 2>>>>))).
(** src/mat3.cpp 223-226 *)
Definition c_op_ne_mat3_mat3 : fundef fn := Fun ["first"; "second"] [Tcls Cmat3; Tcls Cmat3] (RVal Tbool) [] (
  Return (Un Onot (Call op_eq_mat3_mat3 <<Var "first"; Var "second">>))).
(** src/mat3.cpp 228-236 *)
Definition c_make_mat3_float_ptr : fundef fn := Fun ["ptr"] [Tptr Tfloat] (RVal (Tcls Cmat3)) [] (
  Assert (Conv Tbool (Var "ptr"));;
  Return (Call mat3__float_float_float_float_float_float_float_float_float <<Deref (Var "ptr") 0; Deref (Var "ptr") 1; Deref (Var "ptr") 2; Deref (Var
    "ptr") 3; Deref (Var "ptr") 4; Deref (Var "ptr") 5; Deref (Var "ptr") 6; Deref (Var "ptr") 7; Deref (Var "ptr") 8>>)).

(** ** src/mat4.cpp *)
(** src/mat4.cpp 10-11 *)
Definition c_mat4__default : fundef fn := Fun [] [] (RVal (Tcls Cmat4)) [] (
  Decl "this" (Some (Call mat4__float <<Lit 1 0>>));;
  Made).
(** src/mat4.cpp 13-14 *)
Definition c_mat4__no_init_t : fundef fn := Fun [] [] (RVal (Tcls Cmat4)) [] (
  Decl "this" (Some (New Cmat4 <<Call vec4__default ENil; Call vec4__default ENil; Call vec4__default ENil; Call vec4__default ENil>>));;
  Made).
(** src/mat4.cpp 16-22 *)
Definition c_mat4__float : fundef fn := Fun ["value"] [Tfloat] (RVal (Tcls Cmat4)) [] (
  Decl "this" (Some (New Cmat4 <<Call vec4__default ENil; Call vec4__default ENil; Call vec4__default ENil; Call vec4__default ENil>>));;
  Assign (LFld (LVar "this") 0) (Call vec4__float_float_float_float <<Var "value"; Lit 0 0; Lit 0 0; Lit 0 0>>);;
  Assign (LFld (LVar "this") 1) (Call vec4__float_float_float_float <<Lit 0 0; Var "value"; Lit 0 0; Lit 0 0>>);;
  Assign (LFld (LVar "this") 2) (Call vec4__float_float_float_float <<Lit 0 0; Lit 0 0; Var "value"; Lit 0 0>>);;
  Assign (LFld (LVar "this") 3) (Call vec4__float_float_float_float <<Lit 0 0; Lit 0 0; Lit 0 0; Var "value">>);;
  Made).
(** src/mat4.cpp 24-30 *)
Definition c_mat4__vec4_vec4_vec4_vec4 : fundef fn := Fun ["c0"; "c1"; "c2"; "c3"] [Tcls Cvec4; Tcls Cvec4; Tcls Cvec4; Tcls Cvec4] (RVal (Tcls Cmat4)) [] (
  Decl "this" (Some (New Cmat4 <<Call vec4__default ENil; Call vec4__default ENil; Call vec4__default ENil; Call vec4__default ENil>>));;
  Assign (LFld (LVar "this") 0) (Var "c0");;
  Assign (LFld (LVar "this") 1) (Var "c1");;
  Assign (LFld (LVar "this") 2) (Var "c2");;
  Assign (LFld (LVar "this") 3) (Var "c3");;
  Made).
(** src/mat4.cpp 32-41 *)
Definition c_mat4__float_float_float_float_float_float_float_float_float_float_float_float_float_float_float_float : fundef fn := Fun ["c00"; "c01"; "c02"; "c03"; "c10"; "c11"; "c12"; "c13"; "c20"; "c21"; "c22"; "c23"; "c30"; "c31"; "c32"; "c33"] [Tfloat; Tfloat; Tfloat; Tfloat; Tfloat; Tfloat; Tfloat; Tfloat; Tfloat; Tfloat; Tfloat; Tfloat; Tfloat; Tfloat; Tfloat; Tfloat] (RVal (Tcls Cmat4)) [] (
  Decl "this" (Some (New Cmat4 <<Call vec4__default ENil; Call vec4__default ENil; Call vec4__default ENil; Call vec4__default ENil>>));;
  Assign (LFld (LVar "this") 0) (Call vec4__float_float_float_float <<Var "c00"; Var "c01"; Var "c02"; Var "c03">>);;
  Assign (LFld (LVar "this") 1) (Call vec4__float_float_float_float <<Var "c10"; Var "c11"; Var "c12"; Var "c13">>);;
  Assign (LFld (LVar "this") 2) (Call vec4__float_float_float_float <<Var "c20"; Var "c21"; Var "c22"; Var "c23">>);;
  Assign (LFld (LVar "this") 3) (Call vec4__float_float_float_float <<Var "c30"; Var "c31"; Var "c32"; Var "c33">>);;
  Made).
(** src/mat4.cpp 43-49 *)
Definition c_mat4__mat3 : fundef fn := Fun ["m"] [Tcls Cmat3] (RVal (Tcls Cmat4)) [] (
  Decl "this" (Some (New Cmat4 <<Call vec4__default ENil; Call vec4__default ENil; Call vec4__default ENil; Call vec4__default ENil>>));;
  Assign (LFld (LVar "this") 0) (Call vec4__vec3_float <<Call mat3__index_const <<Var "m"; UInt 0>>; Lit 0 0>>);;
  Assign (LFld (LVar "this") 1) (Call vec4__vec3_float <<Call mat3__index_const <<Var "m"; UInt 1>>; Lit 0 0>>);;
  Assign (LFld (LVar "this") 2) (Call vec4__vec3_float <<Call mat3__index_const <<Var "m"; UInt 2>>; Lit 0 0>>);;
  Assign (LFld (LVar "this") 3) (Call vec4__float_float_float_float <<Lit 0 0; Lit 0 0; Lit 0 0; Lit 1 0>>);;
  Made).
(** src/mat4.cpp 51-56 *)
Definition c_mat4__to_mat3 : fundef fn := Fun ["this"] [Tcls Cmat4] (RVal (Tcls Cmat3)) [] (
  Return (Call mat3__vec3_vec3_vec3 <<Call vec3__float_float_float <<Read (LFld (LFld (LVar "this") 0) 0); Read (LFld (LFld (LVar "this") 0) 1); Read
    (LFld (LFld (LVar "this") 0) 2)>>; Call vec3__float_float_float <<Read (LFld (LFld (LVar "this") 1) 0); Read (LFld (LFld (LVar "this") 1) 1); Read
    (LFld (LFld (LVar "this") 1) 2)>>; Call vec3__float_float_float <<Read (LFld (LFld (LVar "this") 2) 0); Read (LFld (LFld (LVar "this") 2) 1); Read
    (LFld (LFld (LVar "this") 2) 2)>>>>)).
(** src/mat4.cpp 59-65 *)
Definition c_op_add_mat4_mat4 : fundef fn := Fun ["first"; "second"] [Tcls Cmat4; Tcls Cmat4] (RVal (Tcls Cmat4)) [] (
  Return (Call mat4__vec4_vec4_vec4_vec4 <<Call op_add_vec4_vec4 <<Call mat4__index_const <<Var "first"; UInt 0>>; Call mat4__index_const <<Var
    "second"; UInt 0>>>>; Call op_add_vec4_vec4 <<Call mat4__index_const <<Var "first"; UInt 1>>; Call mat4__index_const <<Var "second"; UInt 1>>>>;
    Call op_add_vec4_vec4 <<Call mat4__index_const <<Var "first"; UInt 2>>; Call mat4__index_const <<Var "second"; UInt 2>>>>; Call op_add_vec4_vec4
    <<Call mat4__index_const <<Var "first"; UInt 3>>; Call mat4__index_const <<Var "second"; UInt 3>>>>>>)).
(** src/mat4.cpp 67-73 *)
Definition c_op_sub_mat4_mat4 : fundef fn := Fun ["first"; "second"] [Tcls Cmat4; Tcls Cmat4] (RVal (Tcls Cmat4)) [] (
  Return (Call mat4__vec4_vec4_vec4_vec4 <<Call op_sub_vec4_vec4 <<Call mat4__index_const <<Var "first"; UInt 0>>; Call mat4__index_const <<Var
    "second"; UInt 0>>>>; Call op_sub_vec4_vec4 <<Call mat4__index_const <<Var "first"; UInt 1>>; Call mat4__index_const <<Var "second"; UInt 1>>>>;
    Call op_sub_vec4_vec4 <<Call mat4__index_const <<Var "first"; UInt 2>>; Call mat4__index_const <<Var "second"; UInt 2>>>>; Call op_sub_vec4_vec4
    <<Call mat4__index_const <<Var "first"; UInt 3>>; Call mat4__index_const <<Var "second"; UInt 3>>>>>>)).
(** src/mat4.cpp 75-81 *)
Definition c_op_sub_mat4 : fundef fn := Fun ["first"] [Tcls Cmat4] (RVal (Tcls Cmat4)) [] (
  Return (Call mat4__vec4_vec4_vec4_vec4 <<Call op_sub_vec4 <<Call mat4__index_const <<Var "first"; UInt 0>>>>; Call op_sub_vec4 <<Call
    mat4__index_const <<Var "first"; UInt 1>>>>; Call op_sub_vec4 <<Call mat4__index_const <<Var "first"; UInt 2>>>>; Call op_sub_vec4 <<Call
    mat4__index_const <<Var "first"; UInt 3>>>>>>)).
(** src/mat4.cpp 83-86 *)
Definition c_op_add_mat4 : fundef fn := Fun ["first"] [Tcls Cmat4] (RVal (Tcls Cmat4)) [] (
  Return (Var "first")).
(** src/mat4.cpp 88-106 *)
Definition c_op_mul_mat4_mat4 : fundef fn := Fun ["m1"; "m2"] [Tcls Cmat4; Tcls Cmat4] (RVal (Tcls Cmat4)) [] (
  Decl "SrcA0" (Some (Call mat4__index_const <<Var "m1"; UInt 0>>));;
  Decl "SrcA1" (Some (Call mat4__index_const <<Var "m1"; UInt 1>>));;
  Decl "SrcA2" (Some (Call mat4__index_const <<Var "m1"; UInt 2>>));;
  Decl "SrcA3" (Some (Call mat4__index_const <<Var "m1"; UInt 3>>));;
  Decl "SrcB0" (Some (Call mat4__index_const <<Var "m2"; UInt 0>>));;
  Decl "SrcB1" (Some (Call mat4__index_const <<Var "m2"; UInt 1>>));;
  Decl "SrcB2" (Some (Call mat4__index_const <<Var "m2"; UInt 2>>));;
  Decl "SrcB3" (Some (Call mat4__index_const <<Var "m2"; UInt 3>>));;
  Decl "Result" (Some (Call mat4__default ENil));;
  Assign (LIdx mat4__index (LVar "Result") (UInt 0)) (Call op_add_vec4_vec4 <<Call op_add_vec4_vec4 <<Call op_add_vec4_vec4 <<Call op_mul_vec4_float
    <<Var "SrcA0"; Call vec4__index_const <<Var "SrcB0"; UInt 0>>>>; Call op_mul_vec4_float <<Var "SrcA1"; Call vec4__index_const <<Var "SrcB0"; UInt
    1>>>>>>; Call op_mul_vec4_float <<Var "SrcA2"; Call vec4__index_const <<Var "SrcB0"; UInt 2>>>>>>; Call op_mul_vec4_float <<Var "SrcA3"; Call
    vec4__index_const <<Var "SrcB0"; UInt 3>>>>>>);;
  Assign (LIdx mat4__index (LVar "Result") (UInt 1)) (Call op_add_vec4_vec4 <<Call op_add_vec4_vec4 <<Call op_add_vec4_vec4 <<Call op_mul_vec4_float
    <<Var "SrcA0"; Call vec4__index_const <<Var "SrcB1"; UInt 0>>>>; Call op_mul_vec4_float <<Var "SrcA1"; Call vec4__index_const <<Var "SrcB1"; UInt
    1>>>>>>; Call op_mul_vec4_float <<Var "SrcA2"; Call vec4__index_const <<Var "SrcB1"; UInt 2>>>>>>; Call op_mul_vec4_float <<Var "SrcA3"; Call
    vec4__index_const <<Var "SrcB1"; UInt 3>>>>>>);;
  Assign (LIdx mat4__index (LVar "Result") (UInt 2)) (Call op_add_vec4_vec4 <<Call op_add_vec4_vec4 <<Call op_add_vec4_vec4 <<Call op_mul_vec4_float
    <<Var "SrcA0"; Call vec4__index_const <<Var "SrcB2"; UInt 0>>>>; Call op_mul_vec4_float <<Var "SrcA1"; Call vec4__index_const <<Var "SrcB2"; UInt
    1>>>>>>; Call op_mul_vec4_float <<Var "SrcA2"; Call vec4__index_const <<Var "SrcB2"; UInt 2>>>>>>; Call op_mul_vec4_float <<Var "SrcA3"; Call
    vec4__index_const <<Var "SrcB2"; UInt 3>>>>>>);;
  Assign (LIdx mat4__index (LVar "Result") (UInt 3)) (Call op_add_vec4_vec4 <<Call op_add_vec4_vec4 <<Call op_add_vec4_vec4 <<Call op_mul_vec4_float
    <<Var "SrcA0"; Call vec4__index_const <<Var "SrcB3"; UInt 0>>>>; Call op_mul_vec4_float <<Var "SrcA1"; Call vec4__index_const <<Var "SrcB3"; UInt
    1>>>>>>; Call op_mul_vec4_float <<Var "SrcA2"; Call vec4__index_const <<Var "SrcB3"; UInt 2>>>>>>; Call op_mul_vec4_float <<Var "SrcA3"; Call
    vec4__index_const <<Var "SrcB3"; UInt 3>>>>>>);;
  Return (Var "Result")).
(** src/mat4.cpp 108-111 *)
Definition c_op_div_mat4_mat4 : fundef fn := Fun ["first"; "second"] [Tcls Cmat4; Tcls Cmat4] (RVal (Tcls Cmat4)) [] (
  Return (Call op_mul_mat4_mat4 <<Var "first"; Call inverse_mat4 <<Var "second">>>>)).
(** src/mat4.cpp 114-120 *)
Definition c_op_mul_mat4_float : fundef fn := Fun ["mat"; "scalar"] [Tcls Cmat4; Tfloat] (RVal (Tcls Cmat4)) [] (
  Return (Call mat4__vec4_vec4_vec4_vec4 <<Call op_mul_vec4_float <<Call mat4__index_const <<Var "mat"; UInt 0>>; Var "scalar">>; Call op_mul_vec4_float
    <<Call mat4__index_const <<Var "mat"; UInt 1>>; Var "scalar">>; Call op_mul_vec4_float <<Call mat4__index_const <<Var "mat"; UInt 2>>; Var
    "scalar">>; Call op_mul_vec4_float <<Call mat4__index_const <<Var "mat"; UInt 3>>; Var "scalar">>>>)).
(** src/mat4.cpp 122-128 *)
Definition c_op_div_mat4_float : fundef fn := Fun ["mat"; "scalar"] [Tcls Cmat4; Tfloat] (RVal (Tcls Cmat4)) [] (
  Return (Call mat4__vec4_vec4_vec4_vec4 <<Call op_div_vec4_float <<Call mat4__index_const <<Var "mat"; UInt 0>>; Var "scalar">>; Call op_div_vec4_float
    <<Call mat4__index_const <<Var "mat"; UInt 1>>; Var "scalar">>; Call op_div_vec4_float <<Call mat4__index_const <<Var "mat"; UInt 2>>; Var
    "scalar">>; Call op_div_vec4_float <<Call mat4__index_const <<Var "mat"; UInt 3>>; Var "scalar">>>>)).
(** src/mat4.cpp 130-136 *)
Definition c_op_mul_float_mat4 : fundef fn := Fun ["scalar"; "mat"] [Tfloat; Tcls Cmat4] (RVal (Tcls Cmat4)) [] (
  Return (Call mat4__vec4_vec4_vec4_vec4 <<Call op_mul_float_vec4 <<Var "scalar"; Call mat4__index_const <<Var "mat"; UInt 0>>>>; Call op_mul_float_vec4
    <<Var "scalar"; Call mat4__index_const <<Var "mat"; UInt 1>>>>; Call op_mul_float_vec4 <<Var "scalar"; Call mat4__index_const <<Var "mat"; UInt
    2>>>>; Call op_mul_float_vec4 <<Var "scalar"; Call mat4__index_const <<Var "mat"; UInt 3>>>>>>)).
(** src/mat4.cpp 138-144 *)
Definition c_op_div_float_mat4 : fundef fn := Fun ["scalar"; "mat"] [Tfloat; Tcls Cmat4] (RVal (Tcls Cmat4)) [] (
  Return (Call mat4__vec4_vec4_vec4_vec4 <<Call op_div_float_vec4 <<Var "scalar"; Call mat4__index_const <<Var "mat"; UInt 0>>>>; Call op_div_float_vec4
    <<Var "scalar"; Call mat4__index_const <<Var "mat"; UInt 1>>>>; Call op_div_float_vec4 <<Var "scalar"; Call mat4__index_const <<Var "mat"; UInt
    2>>>>; Call op_div_float_vec4 <<Var "scalar"; Call mat4__index_const <<Var "mat"; UInt 3>>>>>>)).
(** src/mat4.cpp 147-150 *)
Definition c_mat4__op_add_assign_mat4 : fundef fn := Fun ["this"; "first"] [Tcls Cmat4; Tcls Cmat4] RVoid ["this"] (
  Assign (LVar "this") (Call op_add_mat4_mat4 <<Var "this"; Var "first">>)).
(** src/mat4.cpp 152-155 *)
Definition c_mat4__op_sub_assign_mat4 : fundef fn := Fun ["this"; "first"] [Tcls Cmat4; Tcls Cmat4] RVoid ["this"] (
  Assign (LVar "this") (Call op_sub_mat4_mat4 <<Var "this"; Var "first">>)).
(** src/mat4.cpp 157-160 *)
Definition c_mat4__op_mul_assign_mat4 : fundef fn := Fun ["this"; "first"] [Tcls Cmat4; Tcls Cmat4] RVoid ["this"] (
  Assign (LVar "this") (Call op_mul_mat4_mat4 <<Var "this"; Var "first">>)).
(** src/mat4.cpp 162-165 *)
Definition c_mat4__op_div_assign_mat4 : fundef fn := Fun ["this"; "first"] [Tcls Cmat4; Tcls Cmat4] RVoid ["this"] (
  Assign (LVar "this") (Call op_div_mat4_mat4 <<Var "this"; Var "first">>)).
(** src/mat4.cpp 167-171 *)
Definition c_mat4__index : fundef fn := Fun ["this"; "pos"] [Tcls Cmat4; Tuint] (RRef (Tcls Cvec4)) [] (
  Assert (Bin Olt (Var "pos") (UInt 4));;
  ReturnRef (LSub (LVar "this") (Var "pos"))).
(** src/mat4.cpp 173-177 *)
Definition c_mat4__index_const : fundef fn := Fun ["this"; "pos"] [Tcls Cmat4; Tuint] (RVal (Tcls Cvec4)) [] (
  Assert (Bin Olt (Var "pos") (UInt 4));;
  Return (Read (LSub (LVar "this") (Var "pos")))).
(** src/mat4.cpp 179-193 *)
Definition c_op_mul_mat4_vec4 : fundef fn := Fun ["m"; "v"] [Tcls Cmat4; Tcls Cvec4] (RVal (Tcls Cvec4)) [] (
  Decl "Mov0" (Some (Call vec4__index_const <<Var "v"; UInt 0>>));;
  Decl "Mov1" (Some (Call vec4__index_const <<Var "v"; UInt 1>>));;
  Decl "Mul0" (Some (Call op_mul_vec4_float <<Call mat4__index_const <<Var "m"; UInt 0>>; Var "Mov0">>));;
  Decl "Mul1" (Some (Call op_mul_vec4_float <<Call mat4__index_const <<Var "m"; UInt 1>>; Var "Mov1">>));;
  Decl "Add0" (Some (Call op_add_vec4_vec4 <<Var "Mul0"; Var "Mul1">>));;
  Decl "Mov2" (Some (Call vec4__index_const <<Var "v"; UInt 2>>));;
  Decl "Mov3" (Some (Call vec4__index_const <<Var "v"; UInt 3>>));;
  Decl "Mul2" (Some (Call op_mul_vec4_float <<Call mat4__index_const <<Var "m"; UInt 2>>; Var "Mov2">>));;
  Decl "Mul3" (Some (Call op_mul_vec4_float <<Call mat4__index_const <<Var "m"; UInt 3>>; Var "Mov3">>));;
  Decl "Add1" (Some (Call op_add_vec4_vec4 <<Var "Mul2"; Var "Mul3">>));;
  Decl "Add2" (Some (Call op_add_vec4_vec4 <<Var "Add0"; Var "Add1">>));;
  Return (Var "Add2")).
(** src/mat4.cpp 195-201 *)
Definition c_op_mul_vec4_mat4 : fundef fn := Fun ["v"; "m"] [Tcls Cvec4; Tcls Cmat4] (RVal (Tcls Cvec4)) [] (
  Return (Call vec4__float_float_float_float <<Bin Oadd (Bin Oadd (Bin Oadd (Bin Omul (Call vec4__index_const <<Call mat4__index_const <<Var "m"; UInt
    0>>; UInt 0>>) (Call vec4__index_const <<Var "v"; UInt 0>>)) (Bin Omul (Call vec4__index_const <<Call mat4__index_const <<Var "m"; UInt 0>>; UInt
    1>>) (Call vec4__index_const <<Var "v"; UInt 1>>))) (Bin Omul (Call vec4__index_const <<Call mat4__index_const <<Var "m"; UInt 0>>; UInt 2>>)
    (Call vec4__index_const <<Var "v"; UInt 2>>))) (Bin Omul (Call vec4__index_const <<Call mat4__index_const <<Var "m"; UInt 0>>; UInt 3>>) (Call
    vec4__index_const <<Var "v"; UInt 3>>)); Bin Oadd (Bin Oadd (Bin Oadd (Bin Omul (Call vec4__index_const <<Call mat4__index_const <<Var "m"; UInt
    1>>; UInt 0>>) (Call vec4__index_const <<Var "v"; UInt 0>>)) (Bin Omul (Call vec4__index_const <<Call mat4__index_const <<Var "m"; UInt 1>>; UInt
    1>>) (Call vec4__index_const <<Var "v"; UInt 1>>))) (Bin Omul (Call vec4__index_const <<Call mat4__index_const <<Var "m"; UInt 1>>; UInt 2>>)
    (Call vec4__index_const <<Var "v"; UInt 2>>))) (Bin Omul (Call vec4__index_const <<Call mat4__index_const <<Var "m"; UInt 1>>; UInt 3>>) (Call
    vec4__index_const <<Var "v"; UInt 3>>)); Bin Oadd (Bin Oadd (Bin Oadd (Bin Omul (Call vec4__index_const <<Call mat4__index_const <<Var "m"; UInt
    2>>; UInt 0>>) (Call vec4__index_const <<Var "v"; UInt 0>>)) (Bin Omul (Call vec4__index_const <<Call mat4__index_const <<Var "m"; UInt 2>>; UInt
    1>>) (Call vec4__index_const <<Var "v"; UInt 1>>))) (Bin Omul (Call vec4__index_const <<Call mat4__index_const <<Var "m"; UInt 2>>; UInt 2>>)
    (Call vec4__index_const <<Var "v"; UInt 2>>))) (Bin Omul (Call vec4__index_const <<Call mat4__index_const <<Var "m"; UInt 2>>; UInt 3>>) (Call
    vec4__index_const <<Var "v"; UInt 3>>)); Bin Oadd (Bin Oadd (Bin Oadd (Bin Omul (Call vec4__index_const <<Call mat4__index_const <<Var "m"; UInt
    3>>; UInt 0>>) (Call vec4__index_const <<Var "v"; UInt 0>>)) (Bin Omul (Call vec4__index_const <<Call mat4__index_const <<Var "m"; UInt 3>>; UInt
    1>>) (Call vec4__index_const <<Var "v"; UInt 1>>))) (Bin Omul (Call vec4__index_const <<Call mat4__index_const <<Var "m"; UInt 3>>; UInt 2>>)
    (Call vec4__index_const <<Var "v"; UInt 2>>))) (Bin Omul (Call vec4__index_const <<Call mat4__index_const <<Var "m"; UInt 3>>; UInt 3>>) (Call
    vec4__index_const <<Var "v"; UInt 3>>))>>)).
(** src/mat4.cpp 203-206 *)
Definition c_op_div_mat4_vec4 : fundef fn := Fun ["mat"; "vec"] [Tcls Cmat4; Tcls Cvec4] (RVal (Tcls Cvec4)) [] (
  Return (Call op_mul_mat4_vec4 <<Call inverse_mat4 <<Var "mat">>; Var "vec">>)).
(** src/mat4.cpp 208-211 *)
Definition c_op_div_vec4_mat4 : fundef fn := Fun ["vec"; "mat"] [Tcls Cvec4; Tcls Cmat4] (RVal (Tcls Cvec4)) [] (
  Return (Call op_mul_vec4_mat4 <<Var "vec"; Call inverse_mat4 <<Var "mat">>>>)).
(** src/mat4.cpp 213-216 *)
Definition c_op_eq_mat4_mat4 : fundef fn := Fun ["first"; "second"] [Tcls Cmat4; Tcls Cmat4] (RVal Tbool) [] (
  Return (And (And (And (Call op_eq_vec4_vec4 <<Call mat4__index_const <<Var "first"; UInt 0>>; Call mat4__index_const <<Var "second"; UInt 0>>>>) (Call
    op_eq_vec4_vec4 <<Call mat4__index_const <<Var "first"; UInt 1>>; Call mat4__index_const <<Var "second"; UInt 1>>>>)) (Call op_eq_vec4_vec4 <<Call
    mat4__index_const <<Var "first"; UInt 2>>; Call mat4__index_const <<Var "second"; UInt 2>>>>)) (Call op_eq_vec4_vec4 <<Call mat4__index_const
    <<Var "first"; UInt 3>>; Call mat4__index_const <<Var "second"; UInt 3>>>>))).
(** src/mat4.cpp 218-221 *)
Definition c_op_ne_mat4_mat4 : fundef fn := Fun ["first"; "second"] [Tcls Cmat4; Tcls Cmat4] (RVal Tbool) [] (
  Return (Un Onot (Call op_eq_mat4_mat4 <<Var "first"; Var "second">>))).
(** src/mat4.cpp 223-232 *)
Definition c_make_mat4_float_ptr : fundef fn := Fun ["p"] [Tptr Tfloat] (RVal (Tcls Cmat4)) [] (
  Assert (Conv Tbool (Var "p"));;
  Return (Call mat4__float_float_float_float_float_float_float_float_float_float_float_float_float_float_float_float <<Deref (Var "p") 0; Deref (Var
    "p") 1; Deref (Var "p") 2; Deref (Var "p") 3; Deref (Var "p") 4; Deref (Var "p") 5; Deref (Var "p") 6; Deref (Var "p") 7; Deref (Var "p") 8; Deref
    (Var "p") 9; Deref (Var "p") 10; Deref (Var "p") 11; Deref (Var "p") 12; Deref (Var "p") 13; Deref (Var "p") 14; Deref (Var "p") 15>>)).

(** ** src/quat.cpp *)
(** src/quat.cpp 16-21 *)
Definition c_quat__default : fundef fn := Fun [] [] (RVal (Tcls Cquat)) [] (
  Decl "this" (Some (New Cquat ENil));;
  Assign (LFld (LVar "this") 0) (Lit 0 0);;
  Assign (LFld (LVar "this") 1) (Lit 0 0);;
  Assign (LFld (LVar "this") 2) (Lit 0 0);;
  Assign (LFld (LVar "this") 3) (Lit 1 0);;
  Made).
(** src/quat.cpp 23-24 *)
Definition c_quat__no_init_t : fundef fn := Fun [] [] (RVal (Tcls Cquat)) [] (
  Decl "this" (Some (New Cquat ENil));;
  Made).
(** src/quat.cpp 26-31 *)
Definition c_quat__float_float_float_float : fundef fn := Fun ["_w"; "_x"; "_y"; "_z"] [Tfloat; Tfloat; Tfloat; Tfloat] (RVal (Tcls Cquat)) [] (
  Decl "this" (Some (New Cquat ENil));;
  Assign (LFld (LVar "this") 0) (Var "_x");;
  Assign (LFld (LVar "this") 1) (Var "_y");;
  Assign (LFld (LVar "this") 2) (Var "_z");;
  Assign (LFld (LVar "this") 3) (Var "_w");;
  Made).
(** src/quat.cpp 33-38 *)
Definition c_quat__float_vec3 : fundef fn := Fun ["s"; "v"] [Tfloat; Tcls Cvec3] (RVal (Tcls Cquat)) [] (
  Decl "this" (Some (New Cquat ENil));;
  Assign (LFld (LVar "this") 0) (Read (LFld (LVar "v") 0));;
  Assign (LFld (LVar "this") 1) (Read (LFld (LVar "v") 1));;
  Assign (LFld (LVar "this") 2) (Read (LFld (LVar "v") 2));;
  Assign (LFld (LVar "this") 3) (Var "s");;
  Made).
(** src/quat.cpp 40-45 *)
Definition c_quat__vec3_float : fundef fn := Fun ["v"; "s"] [Tcls Cvec3; Tfloat] (RVal (Tcls Cquat)) [] (
  Decl "this" (Some (New Cquat ENil));;
  Assign (LFld (LVar "this") 0) (Read (LFld (LVar "v") 0));;
  Assign (LFld (LVar "this") 1) (Read (LFld (LVar "v") 1));;
  Assign (LFld (LVar "this") 2) (Read (LFld (LVar "v") 2));;
  Assign (LFld (LVar "this") 3) (Var "s");;
  Made).
(** src/quat.cpp 47-50 *)
Definition c_quat__wxyz_float_float_float_float : fundef fn := Fun ["w"; "x"; "y"; "z"] [Tfloat; Tfloat; Tfloat; Tfloat] (RVal (Tcls Cquat)) [] (
  Return (Call quat__float_float_float_float <<Var "w"; Var "x"; Var "y"; Var "z">>)).
(** src/quat.cpp 52-75 *)
Definition c_quat__vec3_vec3 : fundef fn := Fun ["u"; "v"] [Tcls Cvec3; Tcls Cvec3] (RVal (Tcls Cquat)) [] (
  Decl "this" (Some (New Cquat ENil));;
  Decl "norm_u_norm_v" (Some (Call sqrt_float <<Bin Omul (Call dot_vec3_vec3 <<Var "u"; Var "u">>) (Call dot_vec3_vec3 <<Var "v"; Var "v">>)>>));;
  Decl "real_part" (Some (Bin Oadd (Var "norm_u_norm_v") (Call dot_vec3_vec3 <<Var "u"; Var "v">>)));;
  Decl "w_" (Some (Call vec3__default ENil));;
  If (Bin Olt (Var "real_part") (Bin Omul (Lit 1 (-6)) (Var "norm_u_norm_v"))) (Assign (LVar "real_part") (Lit 0 0);; Assign (LVar "w_") (Cond (Bin Ogt
    (Call abs_float <<Read (LFld (LVar "u") 0)>>) (Call abs_float <<Read (LFld (LVar "u") 2)>>)) (Call vec3__float_float_float <<Un Oneg (Read (LFld
    (LVar "u") 1)); Read (LFld (LVar "u") 0); Lit 0 0>>) (Call vec3__float_float_float <<Lit 0 0; Un Oneg (Read (LFld (LVar "u") 2)); Read (LFld (LVar
    "u") 1)>>))) (Assign (LVar "w_") (Call cross_vec3_vec3 <<Var "u"; Var "v">>));;
  Decl "res" (Some (Call normalize_quat <<Call quat__wxyz_float_float_float_float <<Var "real_part"; Read (LFld (LVar "w_") 0); Read (LFld (LVar "w_")
    1); Read (LFld (LVar "w_") 2)>>>>));;
  Assign (LVar "this") (Var "res");;
  Made).
(** src/quat.cpp 77-86 *)
Definition c_quat__vec3 : fundef fn := Fun ["eulerAngles"] [Tcls Cvec3] (RVal (Tcls Cquat)) [] (
  Decl "this" (Some (New Cquat ENil));;
  Decl "c" (Some (Call cos_vec3 <<Call op_mul_vec3_float <<Var "eulerAngles"; Lit 5 (-1)>>>>));;
  Decl "s" (Some (Call sin_vec3 <<Call op_mul_vec3_float <<Var "eulerAngles"; Lit 5 (-1)>>>>));;
  Assign (LFld (LVar "this") 3) (Bin Oadd (Bin Omul (Bin Omul (Read (LFld (LVar "c") 0)) (Read (LFld (LVar "c") 1))) (Read (LFld (LVar "c") 2))) (Bin
    Omul (Bin Omul (Read (LFld (LVar "s") 0)) (Read (LFld (LVar "s") 1))) (Read (LFld (LVar "s") 2))));;
  Assign (LFld (LVar "this") 0) (Bin Osub (Bin Omul (Bin Omul (Read (LFld (LVar "s") 0)) (Read (LFld (LVar "c") 1))) (Read (LFld (LVar "c") 2))) (Bin
    Omul (Bin Omul (Read (LFld (LVar "c") 0)) (Read (LFld (LVar "s") 1))) (Read (LFld (LVar "s") 2))));;
  Assign (LFld (LVar "this") 1) (Bin Oadd (Bin Omul (Bin Omul (Read (LFld (LVar "c") 0)) (Read (LFld (LVar "s") 1))) (Read (LFld (LVar "c") 2))) (Bin
    Omul (Bin Omul (Read (LFld (LVar "s") 0)) (Read (LFld (LVar "c") 1))) (Read (LFld (LVar "s") 2))));;
  Assign (LFld (LVar "this") 2) (Bin Osub (Bin Omul (Bin Omul (Read (LFld (LVar "c") 0)) (Read (LFld (LVar "c") 1))) (Read (LFld (LVar "s") 2))) (Bin
    Omul (Bin Omul (Read (LFld (LVar "s") 0)) (Read (LFld (LVar "s") 1))) (Read (LFld (LVar "c") 2))));;
  Made).
(** src/quat.cpp 88-96 *)
Definition c_make_quat_float_ptr : fundef fn := Fun ["ptr"] [Tptr Tfloat] (RVal (Tcls Cquat)) [] (
  Assert (Conv Tbool (Var "ptr"));;
  Decl "res" (Some (Call quat__default ENil));;
  Assign (LFld (LVar "res") 0) (Deref (Var "ptr") 0);;
  Assign (LFld (LVar "res") 1) (Deref (Var "ptr") 1);;
  Assign (LFld (LVar "res") 2) (Deref (Var "ptr") 2);;
  Assign (LFld (LVar "res") 3) (Deref (Var "ptr") 3);;
  Return (Var "res")).
(** src/quat.cpp 98-110 *)
Definition c_quat__index : fundef fn := Fun ["this"; "val"] [Tcls Cquat; Tuint] (RRef Tfloat) [] (
  Assert (Bin Olt (Var "val") (UInt 4));;
  If (Bin Oeq (Var "val") (UInt 0)) (ReturnRef (LFld (LVar "this") 0)) (If (Bin Oeq (Var "val") (UInt 1)) (ReturnRef (LFld (LVar "this") 1)) (If (Bin
    Oeq (Var "val") (UInt 2)) (ReturnRef (LFld (LVar "this") 2)) Skip));;
  ReturnRef (LFld (LVar "this") 3)).
(** src/quat.cpp 112-124 *)
Definition c_quat__index_const : fundef fn := Fun ["this"; "val"] [Tcls Cquat; Tuint] (RVal Tfloat) [] (
  Assert (Bin Olt (Var "val") (UInt 4));;
  If (Bin Oeq (Var "val") (UInt 0)) (Return (Read (LFld (LVar "this") 0))) (If (Bin Oeq (Var "val") (UInt 1)) (Return (Read (LFld (LVar "this") 1))) (If
    (Bin Oeq (Var "val") (UInt 2)) (Return (Read (LFld (LVar "this") 2))) Skip));;
  Return (Read (LFld (LVar "this") 3))).
(** src/quat.cpp 126-132 *)
Definition c_quat__op_add_assign_quat : fundef fn := Fun ["this"; "other"] [Tcls Cquat; Tcls Cquat] RVoid ["this"] (
  Assign (LFld (LVar "this") 0) (Bin Oadd (Read (LFld (LVar "this") 0)) (Read (LFld (LVar "other") 0)));;
  Assign (LFld (LVar "this") 1) (Bin Oadd (Read (LFld (LVar "this") 1)) (Read (LFld (LVar "other") 1)));;
  Assign (LFld (LVar "this") 2) (Bin Oadd (Read (LFld (LVar "this") 2)) (Read (LFld (LVar "other") 2)));;
  Assign (LFld (LVar "this") 3) (Bin Oadd (Read (LFld (LVar "this") 3)) (Read (LFld (LVar "other") 3)))).
(** src/quat.cpp 134-140 *)
Definition c_quat__op_sub_assign_quat : fundef fn := Fun ["this"; "other"] [Tcls Cquat; Tcls Cquat] RVoid ["this"] (
  Assign (LFld (LVar "this") 0) (Bin Osub (Read (LFld (LVar "this") 0)) (Read (LFld (LVar "other") 0)));;
  Assign (LFld (LVar "this") 1) (Bin Osub (Read (LFld (LVar "this") 1)) (Read (LFld (LVar "other") 1)));;
  Assign (LFld (LVar "this") 2) (Bin Osub (Read (LFld (LVar "this") 2)) (Read (LFld (LVar "other") 2)));;
  Assign (LFld (LVar "this") 3) (Bin Osub (Read (LFld (LVar "this") 3)) (Read (LFld (LVar "other") 3)))).
(** src/quat.cpp 142-158 *)
Definition c_quat__op_mul_assign_quat : fundef fn := Fun ["this"; "q2"] [Tcls Cquat; Tcls Cquat] RVoid ["this"] (
  Decl "ww" (Some (Bin Omul (Bin Oadd (Read (LFld (LVar "this") 2)) (Read (LFld (LVar "this") 0))) (Bin Oadd (Read (LFld (LVar "q2") 0)) (Read (LFld
    (LVar "q2") 1)))));;
  Decl "yy" (Some (Bin Omul (Bin Osub (Read (LFld (LVar "this") 3)) (Read (LFld (LVar "this") 1))) (Bin Oadd (Read (LFld (LVar "q2") 3)) (Read (LFld
    (LVar "q2") 2)))));;
  Decl "zz" (Some (Bin Omul (Bin Oadd (Read (LFld (LVar "this") 3)) (Read (LFld (LVar "this") 1))) (Bin Osub (Read (LFld (LVar "q2") 3)) (Read (LFld
    (LVar "q2") 2)))));;
  Decl "xx" (Some (Bin Oadd (Bin Oadd (Var "ww") (Var "yy")) (Var "zz")));;
  Decl "qq" (Some (Bin Omul (Lit 5 (-1)) (Bin Oadd (Var "xx") (Bin Omul (Bin Osub (Read (LFld (LVar "this") 2)) (Read (LFld (LVar "this") 0))) (Bin Osub
    (Read (LFld (LVar "q2") 0)) (Read (LFld (LVar "q2") 1)))))));;
  Decl "_w" (Some (Bin Oadd (Bin Osub (Var "qq") (Var "ww")) (Bin Omul (Bin Osub (Read (LFld (LVar "this") 2)) (Read (LFld (LVar "this") 1))) (Bin Osub
    (Read (LFld (LVar "q2") 1)) (Read (LFld (LVar "q2") 2))))));;
  Decl "_x" (Some (Bin Oadd (Bin Osub (Var "qq") (Var "xx")) (Bin Omul (Bin Oadd (Read (LFld (LVar "this") 0)) (Read (LFld (LVar "this") 3))) (Bin Oadd
    (Read (LFld (LVar "q2") 0)) (Read (LFld (LVar "q2") 3))))));;
  Decl "_y" (Some (Bin Oadd (Bin Osub (Var "qq") (Var "yy")) (Bin Omul (Bin Osub (Read (LFld (LVar "this") 3)) (Read (LFld (LVar "this") 0))) (Bin Oadd
    (Read (LFld (LVar "q2") 1)) (Read (LFld (LVar "q2") 2))))));;
  Decl "_z" (Some (Bin Oadd (Bin Osub (Var "qq") (Var "zz")) (Bin Omul (Bin Oadd (Read (LFld (LVar "this") 2)) (Read (LFld (LVar "this") 1))) (Bin Osub
    (Read (LFld (LVar "q2") 3)) (Read (LFld (LVar "q2") 0))))));;
  Assign (LFld (LVar "this") 0) (Var "_x");;
  Assign (LFld (LVar "this") 1) (Var "_y");;
  Assign (LFld (LVar "this") 2) (Var "_z");;
  Assign (LFld (LVar "this") 3) (Var "_w")).
(** src/quat.cpp 160-166 *)
Definition c_quat__op_mul_assign_float : fundef fn := Fun ["this"; "scalar"] [Tcls Cquat; Tfloat] RVoid ["this"] (
  Assign (LFld (LVar "this") 0) (Bin Omul (Read (LFld (LVar "this") 0)) (Var "scalar"));;
  Assign (LFld (LVar "this") 1) (Bin Omul (Read (LFld (LVar "this") 1)) (Var "scalar"));;
  Assign (LFld (LVar "this") 2) (Bin Omul (Read (LFld (LVar "this") 2)) (Var "scalar"));;
  Assign (LFld (LVar "this") 3) (Bin Omul (Read (LFld (LVar "this") 3)) (Var "scalar"))).
(** src/quat.cpp 168-174 *)
Definition c_quat__op_div_assign_float : fundef fn := Fun ["this"; "scalar"] [Tcls Cquat; Tfloat] RVoid ["this"] (
  Assign (LFld (LVar "this") 0) (Bin Odiv (Read (LFld (LVar "this") 0)) (Var "scalar"));;
  Assign (LFld (LVar "this") 1) (Bin Odiv (Read (LFld (LVar "this") 1)) (Var "scalar"));;
  Assign (LFld (LVar "this") 2) (Bin Odiv (Read (LFld (LVar "this") 2)) (Var "scalar"));;
  Assign (LFld (LVar "this") 3) (Bin Odiv (Read (LFld (LVar "this") 3)) (Var "scalar"))).
(** src/quat.cpp 176-182 *)
Definition c_op_add_quat_quat : fundef fn := Fun ["a"; "b"] [Tcls Cquat; Tcls Cquat] (RVal (Tcls Cquat)) [] (
  Return (Call quat__float_float_float_float <<Bin Oadd (Read (LFld (LVar "a") 3)) (Read (LFld (LVar "b") 3)); Bin Oadd (Read (LFld (LVar "a") 0)) (Read
    (LFld (LVar "b") 0)); Bin Oadd (Read (LFld (LVar "a") 1)) (Read (LFld (LVar "b") 1)); Bin Oadd (Read (LFld (LVar "a") 2)) (Read (LFld (LVar "b")
    2))>>)).
(** src/quat.cpp 184-190 *)
Definition c_op_sub_quat_quat : fundef fn := Fun ["a"; "b"] [Tcls Cquat; Tcls Cquat] (RVal (Tcls Cquat)) [] (
  Return (Call quat__float_float_float_float <<Bin Osub (Read (LFld (LVar "a") 3)) (Read (LFld (LVar "b") 3)); Bin Osub (Read (LFld (LVar "a") 0)) (Read
    (LFld (LVar "b") 0)); Bin Osub (Read (LFld (LVar "a") 1)) (Read (LFld (LVar "b") 1)); Bin Osub (Read (LFld (LVar "a") 2)) (Read (LFld (LVar "b")
    2))>>)).
(** src/quat.cpp 192-198 *)
Definition c_op_add_quat : fundef fn := Fun ["a"] [Tcls Cquat] (RVal (Tcls Cquat)) [] (
  Return (Call quat__float_float_float_float <<Un Oplus (Read (LFld (LVar "a") 3)); Un Oplus (Read (LFld (LVar "a") 0)); Un Oplus (Read (LFld (LVar "a")
    1)); Un Oplus (Read (LFld (LVar "a") 2))>>)).
(** src/quat.cpp 200-206 *)
Definition c_op_sub_quat : fundef fn := Fun ["a"] [Tcls Cquat] (RVal (Tcls Cquat)) [] (
  Return (Call quat__float_float_float_float <<Un Oneg (Read (LFld (LVar "a") 3)); Un Oneg (Read (LFld (LVar "a") 0)); Un Oneg (Read (LFld (LVar "a")
    1)); Un Oneg (Read (LFld (LVar "a") 2))>>)).
(** src/quat.cpp 208-220 *)
Definition c_op_mul_quat_quat : fundef fn := Fun ["q1"; "q2"] [Tcls Cquat; Tcls Cquat] (RVal (Tcls Cquat)) [] (
  Decl "ww" (Some (Bin Omul (Bin Oadd (Read (LFld (LVar "q1") 2)) (Read (LFld (LVar "q1") 0))) (Bin Oadd (Read (LFld (LVar "q2") 0)) (Read (LFld (LVar
    "q2") 1)))));;
  Decl "yy" (Some (Bin Omul (Bin Osub (Read (LFld (LVar "q1") 3)) (Read (LFld (LVar "q1") 1))) (Bin Oadd (Read (LFld (LVar "q2") 3)) (Read (LFld (LVar
    "q2") 2)))));;
  Decl "zz" (Some (Bin Omul (Bin Oadd (Read (LFld (LVar "q1") 3)) (Read (LFld (LVar "q1") 1))) (Bin Osub (Read (LFld (LVar "q2") 3)) (Read (LFld (LVar
    "q2") 2)))));;
  Decl "xx" (Some (Bin Oadd (Bin Oadd (Var "ww") (Var "yy")) (Var "zz")));;
  Decl "qq" (Some (Bin Omul (Lit 5 (-1)) (Bin Oadd (Var "xx") (Bin Omul (Bin Osub (Read (LFld (LVar "q1") 2)) (Read (LFld (LVar "q1") 0))) (Bin Osub
    (Read (LFld (LVar "q2") 0)) (Read (LFld (LVar "q2") 1)))))));;
  Return (Call quat__float_float_float_float <<Bin Oadd (Bin Osub (Var "qq") (Var "ww")) (Bin Omul (Bin Osub (Read (LFld (LVar "q1") 2)) (Read (LFld
    (LVar "q1") 1))) (Bin Osub (Read (LFld (LVar "q2") 1)) (Read (LFld (LVar "q2") 2)))); Bin Oadd (Bin Osub (Var "qq") (Var "xx")) (Bin Omul (Bin
    Oadd (Read (LFld (LVar "q1") 0)) (Read (LFld (LVar "q1") 3))) (Bin Oadd (Read (LFld (LVar "q2") 0)) (Read (LFld (LVar "q2") 3)))); Bin Oadd (Bin
    Osub (Var "qq") (Var "yy")) (Bin Omul (Bin Osub (Read (LFld (LVar "q1") 3)) (Read (LFld (LVar "q1") 0))) (Bin Oadd (Read (LFld (LVar "q2") 1))
    (Read (LFld (LVar "q2") 2)))); Bin Oadd (Bin Osub (Var "qq") (Var "zz")) (Bin Omul (Bin Oadd (Read (LFld (LVar "q1") 2)) (Read (LFld (LVar "q1")
    1))) (Bin Osub (Read (LFld (LVar "q2") 3)) (Read (LFld (LVar "q2") 0))))>>)).
(** src/quat.cpp 222-228 *)
Definition c_op_mul_quat_float : fundef fn := Fun ["q"; "s"] [Tcls Cquat; Tfloat] (RVal (Tcls Cquat)) [] (
  Return (Call quat__float_float_float_float <<Bin Omul (Read (LFld (LVar "q") 3)) (Var "s"); Bin Omul (Read (LFld (LVar "q") 0)) (Var "s"); Bin Omul
    (Read (LFld (LVar "q") 1)) (Var "s"); Bin Omul (Read (LFld (LVar "q") 2)) (Var "s")>>)).
(** src/quat.cpp 230-236 *)
Definition c_op_mul_float_quat : fundef fn := Fun ["s"; "q"] [Tfloat; Tcls Cquat] (RVal (Tcls Cquat)) [] (
  Return (Call quat__float_float_float_float <<Bin Omul (Read (LFld (LVar "q") 3)) (Var "s"); Bin Omul (Read (LFld (LVar "q") 0)) (Var "s"); Bin Omul
    (Read (LFld (LVar "q") 1)) (Var "s"); Bin Omul (Read (LFld (LVar "q") 2)) (Var "s")>>)).
(** src/quat.cpp 238-244 *)
Definition c_op_div_float_quat : fundef fn := Fun ["s"; "q"] [Tfloat; Tcls Cquat] (RVal (Tcls Cquat)) [] (
  Return (Call quat__float_float_float_float <<Bin Odiv (Var "s") (Read (LFld (LVar "q") 3)); Bin Odiv (Var "s") (Read (LFld (LVar "q") 0)); Bin Odiv
    (Var "s") (Read (LFld (LVar "q") 1)); Bin Odiv (Var "s") (Read (LFld (LVar "q") 2))>>)).
(** src/quat.cpp 246-252 *)
Definition c_op_div_quat_float : fundef fn := Fun ["q"; "s"] [Tcls Cquat; Tfloat] (RVal (Tcls Cquat)) [] (
  Return (Call quat__float_float_float_float <<Bin Odiv (Read (LFld (LVar "q") 3)) (Var "s"); Bin Odiv (Read (LFld (LVar "q") 0)) (Var "s"); Bin Odiv
    (Read (LFld (LVar "q") 1)) (Var "s"); Bin Odiv (Read (LFld (LVar "q") 2)) (Var "s")>>)).
(** src/quat.cpp 255-260 *)
Definition c_op_mul_quat_vec3 : fundef fn := Fun ["q"; "v"] [Tcls Cquat; Tcls Cvec3] (RVal (Tcls Cvec3)) [] (
  Decl "qv" (Some (Call vec3__float_float_float <<Read (LFld (LVar "q") 0); Read (LFld (LVar "q") 1); Read (LFld (LVar "q") 2)>>));;
  Decl "t" (Some (Call op_mul_float_vec3 <<Lit 2 0; Call cross_vec3_vec3 <<Var "qv"; Var "v">>>>));;
  Return (Call op_add_vec3_vec3 <<Call op_add_vec3_vec3 <<Var "v"; Call op_mul_float_vec3 <<Read (LFld (LVar "q") 3); Var "t">>>>; Call cross_vec3_vec3
    <<Var "qv"; Var "t">>>>)).
(** src/quat.cpp 262-265 *)
Definition c_op_mul_vec3_quat : fundef fn := Fun ["v"; "q"] [Tcls Cvec3; Tcls Cquat] (RVal (Tcls Cvec3)) [] (
  Return (Call op_mul_quat_vec3 <<Call inverse_quat <<Var "q">>; Var "v">>)).
(** src/quat.cpp 268-271 *)
Definition c_op_eq_quat_quat : fundef fn := Fun ["first"; "second"] [Tcls Cquat; Tcls Cquat] (RVal Tbool) [] (
  Return (And (And (And (Bin Oeq (Read (LFld (LVar "first") 0)) (Read (LFld (LVar "second") 0))) (Bin Oeq (Read (LFld (LVar "first") 1)) (Read (LFld
    (LVar "second") 1)))) (Bin Oeq (Read (LFld (LVar "first") 2)) (Read (LFld (LVar "second") 2)))) (Bin Oeq (Read (LFld (LVar "first") 3)) (Read
    (LFld (LVar "second") 3))))).
(** src/quat.cpp 273-276 *)
Definition c_op_ne_quat_quat : fundef fn := Fun ["first"; "second"] [Tcls Cquat; Tcls Cquat] (RVal Tbool) [] (
  Return (Un Onot (Call op_eq_quat_quat <<Var "first"; Var "second">>))).

(** ** src/common.cpp *)
(** src/common.cpp 19-22 *)
Definition c_abs_float : fundef fn := Fun ["x"] [Tfloat] (RVal Tfloat) [] (
  Return (Prim Pfabsf <<Var "x">>)).
(** src/common.cpp 24-27 *)
Definition c_abs_vec2 : fundef fn := Fun ["x"] [Tcls Cvec2] (RVal (Tcls Cvec2)) [] (
  Return (Call vec2__float_float <<Call abs_float <<Read (LFld (LVar "x") 0)>>; Call abs_float <<Read (LFld (LVar "x") 1)>>>>)).
(** src/common.cpp 29-32 *)
Definition c_abs_vec3 : fundef fn := Fun ["x"] [Tcls Cvec3] (RVal (Tcls Cvec3)) [] (
  Return (Call vec3__float_float_float <<Call abs_float <<Read (LFld (LVar "x") 0)>>; Call abs_float <<Read (LFld (LVar "x") 1)>>; Call abs_float <<Read
    (LFld (LVar "x") 2)>>>>)).
(** src/common.cpp 34-37 *)
Definition c_abs_vec4 : fundef fn := Fun ["x"] [Tcls Cvec4] (RVal (Tcls Cvec4)) [] (
  Return (Call vec4__float_float_float_float <<Call abs_float <<Read (LFld (LVar "x") 0)>>; Call abs_float <<Read (LFld (LVar "x") 1)>>; Call abs_float
    <<Read (LFld (LVar "x") 2)>>; Call abs_float <<Read (LFld (LVar "x") 3)>>>>)).
(** src/common.cpp 39-42 *)
Definition c_abs_int : fundef fn := Fun ["x"] [Tint] (RVal Tint) [] (
  Return (Prim Pabs <<Var "x">>)).
(** src/common.cpp 44-47 *)
Definition c_abs_ivec2 : fundef fn := Fun ["x"] [Tcls Civec2] (RVal (Tcls Civec2)) [] (
  Return (Call ivec2__int_int <<Call abs_int <<Read (LFld (LVar "x") 0)>>; Call abs_int <<Read (LFld (LVar "x") 1)>>>>)).
(** src/common.cpp 49-52 *)
Definition c_abs_ivec3 : fundef fn := Fun ["x"] [Tcls Civec3] (RVal (Tcls Civec3)) [] (
  Return (Call ivec3__int_int_int <<Call abs_int <<Read (LFld (LVar "x") 0)>>; Call abs_int <<Read (LFld (LVar "x") 1)>>; Call abs_int <<Read (LFld
    (LVar "x") 2)>>>>)).
(** src/common.cpp 54-57 *)
Definition c_abs_ivec4 : fundef fn := Fun ["x"] [Tcls Civec4] (RVal (Tcls Civec4)) [] (
  Return (Call ivec4__int_int_int_int <<Call abs_int <<Read (LFld (LVar "x") 0)>>; Call abs_int <<Read (LFld (LVar "x") 1)>>; Call abs_int <<Read (LFld
    (LVar "x") 2)>>; Call abs_int <<Read (LFld (LVar "x") 3)>>>>)).
(** src/common.cpp 63-66 *)
Definition c_ceil_float : fundef fn := Fun ["x"] [Tfloat] (RVal Tfloat) [] (
  Return (Prim Pceilf <<Var "x">>)).
(** src/common.cpp 68-71 *)
Definition c_ceil_vec2 : fundef fn := Fun ["x"] [Tcls Cvec2] (RVal (Tcls Cvec2)) [] (
  Return (Call vec2__float_float <<Call ceil_float <<Read (LFld (LVar "x") 0)>>; Call ceil_float <<Read (LFld (LVar "x") 1)>>>>)).
(** src/common.cpp 73-76 *)
Definition c_ceil_vec3 : fundef fn := Fun ["x"] [Tcls Cvec3] (RVal (Tcls Cvec3)) [] (
  Return (Call vec3__float_float_float <<Call ceil_float <<Read (LFld (LVar "x") 0)>>; Call ceil_float <<Read (LFld (LVar "x") 1)>>; Call ceil_float
    <<Read (LFld (LVar "x") 2)>>>>)).
(** src/common.cpp 78-81 *)
Definition c_ceil_vec4 : fundef fn := Fun ["x"] [Tcls Cvec4] (RVal (Tcls Cvec4)) [] (
  Return (Call vec4__float_float_float_float <<Call ceil_float <<Read (LFld (LVar "x") 0)>>; Call ceil_float <<Read (LFld (LVar "x") 1)>>; Call
    ceil_float <<Read (LFld (LVar "x") 2)>>; Call ceil_float <<Read (LFld (LVar "x") 3)>>>>)).
(** src/common.cpp 87-90 *)
Definition c_clamp_float_float_float : fundef fn := Fun ["x"; "minVal"; "maxVal"] [Tfloat; Tfloat; Tfloat] (RVal Tfloat) [] (
  Return (Call min_float_float <<Call max_float_float <<Var "x"; Var "minVal">>; Var "maxVal">>)).
(** src/common.cpp 92-95 *)
Definition c_clamp_vec2_vec2_vec2 : fundef fn := Fun ["x"; "minVal"; "maxVal"] [Tcls Cvec2; Tcls Cvec2; Tcls Cvec2] (RVal (Tcls Cvec2)) [] (
  Return (Call min_vec2_vec2 <<Call max_vec2_vec2 <<Var "x"; Var "minVal">>; Var "maxVal">>)).
(** src/common.cpp 97-100 *)
Definition c_clamp_vec3_vec3_vec3 : fundef fn := Fun ["x"; "minVal"; "maxVal"] [Tcls Cvec3; Tcls Cvec3; Tcls Cvec3] (RVal (Tcls Cvec3)) [] (
  Return (Call min_vec3_vec3 <<Call max_vec3_vec3 <<Var "x"; Var "minVal">>; Var "maxVal">>)).
(** src/common.cpp 102-105 *)
Definition c_clamp_vec4_vec4_vec4 : fundef fn := Fun ["x"; "minVal"; "maxVal"] [Tcls Cvec4; Tcls Cvec4; Tcls Cvec4] (RVal (Tcls Cvec4)) [] (
  Return (Call min_vec4_vec4 <<Call max_vec4_vec4 <<Var "x"; Var "minVal">>; Var "maxVal">>)).
(** src/common.cpp 107-110 *)
Definition c_clamp_int_int_int : fundef fn := Fun ["x"; "minVal"; "maxVal"] [Tint; Tint; Tint] (RVal Tint) [] (
  Return (Call min_int_int <<Call max_int_int <<Var "x"; Var "minVal">>; Var "maxVal">>)).
(** src/common.cpp 112-115 *)
Definition c_clamp_ivec2_ivec2_ivec2 : fundef fn := Fun ["x"; "minVal"; "maxVal"] [Tcls Civec2; Tcls Civec2; Tcls Civec2] (RVal (Tcls Civec2)) [] (
  Return (Call min_ivec2_ivec2 <<Call max_ivec2_ivec2 <<Var "x"; Var "minVal">>; Var "maxVal">>)).
(** src/common.cpp 117-120 *)
Definition c_clamp_ivec3_ivec3_ivec3 : fundef fn := Fun ["x"; "minVal"; "maxVal"] [Tcls Civec3; Tcls Civec3; Tcls Civec3] (RVal (Tcls Civec3)) [] (
  Return (Call min_ivec3_ivec3 <<Call max_ivec3_ivec3 <<Var "x"; Var "minVal">>; Var "maxVal">>)).
(** src/common.cpp 122-125 *)
Definition c_clamp_ivec4_ivec4_ivec4 : fundef fn := Fun ["x"; "minVal"; "maxVal"] [Tcls Civec4; Tcls Civec4; Tcls Civec4] (RVal (Tcls Civec4)) [] (
  Return (Call min_ivec4_ivec4 <<Call max_ivec4_ivec4 <<Var "x"; Var "minVal">>; Var "maxVal">>)).
(** src/common.cpp 131-134 *)
Definition c_floor_float : fundef fn := Fun ["x"] [Tfloat] (RVal Tfloat) [] (
  Return (Prim Pfloorf <<Var "x">>)).
(** src/common.cpp 136-139 *)
Definition c_floor_vec2 : fundef fn := Fun ["x"] [Tcls Cvec2] (RVal (Tcls Cvec2)) [] (
  Return (Call vec2__float_float <<Call floor_float <<Read (LFld (LVar "x") 0)>>; Call floor_float <<Read (LFld (LVar "x") 1)>>>>)).
(** src/common.cpp 141-144 *)
Definition c_floor_vec3 : fundef fn := Fun ["x"] [Tcls Cvec3] (RVal (Tcls Cvec3)) [] (
  Return (Call vec3__float_float_float <<Call floor_float <<Read (LFld (LVar "x") 0)>>; Call floor_float <<Read (LFld (LVar "x") 1)>>; Call floor_float
    <<Read (LFld (LVar "x") 2)>>>>)).
(** src/common.cpp 146-149 *)
Definition c_floor_vec4 : fundef fn := Fun ["x"] [Tcls Cvec4] (RVal (Tcls Cvec4)) [] (
  Return (Call vec4__float_float_float_float <<Call floor_float <<Read (LFld (LVar "x") 0)>>; Call floor_float <<Read (LFld (LVar "x") 1)>>; Call
    floor_float <<Read (LFld (LVar "x") 2)>>; Call floor_float <<Read (LFld (LVar "x") 3)>>>>)).
(** src/common.cpp 155-158 *)
Definition c_fma_float_float_float : fundef fn := Fun ["a"; "b"; "c"] [Tfloat; Tfloat; Tfloat] (RVal Tfloat) [] (
  Return (Prim Pfma <<Var "a"; Var "b"; Var "c">>)).
(** src/common.cpp 160-163 *)
Definition c_fma_vec2_vec2_vec2 : fundef fn := Fun ["a"; "b"; "c"] [Tcls Cvec2; Tcls Cvec2; Tcls Cvec2] (RVal (Tcls Cvec2)) [] (
  Return (Call vec2__float_float <<Call fma_float_float_float <<Read (LFld (LVar "a") 0); Read (LFld (LVar "b") 0); Read (LFld (LVar "c") 0)>>; Call
    fma_float_float_float <<Read (LFld (LVar "a") 1); Read (LFld (LVar "b") 1); Read (LFld (LVar "c") 1)>>>>)).
(** src/common.cpp 165-168 *)
Definition c_fma_vec3_vec3_vec3 : fundef fn := Fun ["a"; "b"; "c"] [Tcls Cvec3; Tcls Cvec3; Tcls Cvec3] (RVal (Tcls Cvec3)) [] (
  Return (Call vec3__float_float_float <<Call fma_float_float_float <<Read (LFld (LVar "a") 0); Read (LFld (LVar "b") 0); Read (LFld (LVar "c") 0)>>;
    Call fma_float_float_float <<Read (LFld (LVar "a") 1); Read (LFld (LVar "b") 1); Read (LFld (LVar "c") 1)>>; Call fma_float_float_float <<Read
    (LFld (LVar "a") 2); Read (LFld (LVar "b") 2); Read (LFld (LVar "c") 2)>>>>)).
(** src/common.cpp 170-173 *)
Definition c_fma_vec4_vec4_vec4 : fundef fn := Fun ["a"; "b"; "c"] [Tcls Cvec4; Tcls Cvec4; Tcls Cvec4] (RVal (Tcls Cvec4)) [] (
  Return (Call vec4__float_float_float_float <<Call fma_float_float_float <<Read (LFld (LVar "a") 0); Read (LFld (LVar "b") 0); Read (LFld (LVar "c")
    0)>>; Call fma_float_float_float <<Read (LFld (LVar "a") 1); Read (LFld (LVar "b") 1); Read (LFld (LVar "c") 1)>>; Call fma_float_float_float
    <<Read (LFld (LVar "a") 2); Read (LFld (LVar "b") 2); Read (LFld (LVar "c") 2)>>; Call fma_float_float_float <<Read (LFld (LVar "a") 3); Read
    (LFld (LVar "b") 3); Read (LFld (LVar "c") 3)>>>>)).
(** src/common.cpp 179-182 *)
Definition c_fract_float : fundef fn := Fun ["x"] [Tfloat] (RVal Tfloat) [] (
  Return (Bin Osub (Var "x") (Call floor_float <<Var "x">>))).
(** src/common.cpp 184-187 *)
Definition c_fract_vec2 : fundef fn := Fun ["x"] [Tcls Cvec2] (RVal (Tcls Cvec2)) [] (
  Return (Call op_sub_vec2_vec2 <<Var "x"; Call floor_vec2 <<Var "x">>>>)).
(** src/common.cpp 189-192 *)
Definition c_fract_vec3 : fundef fn := Fun ["x"] [Tcls Cvec3] (RVal (Tcls Cvec3)) [] (
  Return (Call op_sub_vec3_vec3 <<Var "x"; Call floor_vec3 <<Var "x">>>>)).
(** src/common.cpp 194-197 *)
Definition c_fract_vec4 : fundef fn := Fun ["x"] [Tcls Cvec4] (RVal (Tcls Cvec4)) [] (
  Return (Call op_sub_vec4_vec4 <<Var "x"; Call floor_vec4 <<Var "x">>>>)).
(** src/common.cpp 203-206 *)
Definition c_max_float_float : fundef fn := Fun ["x"; "y"] [Tfloat; Tfloat] (RVal Tfloat) [] (
  Return (Cond (Bin Olt (Var "x") (Var "y")) (Var "y") (Var "x"))).
(** src/common.cpp 208-211 *)
Definition c_max_vec2_vec2 : fundef fn := Fun ["x"; "y"] [Tcls Cvec2; Tcls Cvec2] (RVal (Tcls Cvec2)) [] (
  Return (Call vec2__float_float <<Call max_float_float <<Read (LFld (LVar "x") 0); Read (LFld (LVar "y") 0)>>; Call max_float_float <<Read (LFld (LVar
    "x") 1); Read (LFld (LVar "y") 1)>>>>)).
(** src/common.cpp 213-216 *)
Definition c_max_vec3_vec3 : fundef fn := Fun ["x"; "y"] [Tcls Cvec3; Tcls Cvec3] (RVal (Tcls Cvec3)) [] (
  Return (Call vec3__float_float_float <<Call max_float_float <<Read (LFld (LVar "x") 0); Read (LFld (LVar "y") 0)>>; Call max_float_float <<Read (LFld
    (LVar "x") 1); Read (LFld (LVar "y") 1)>>; Call max_float_float <<Read (LFld (LVar "x") 2); Read (LFld (LVar "y") 2)>>>>)).
(** src/common.cpp 218-221 *)
Definition c_max_vec4_vec4 : fundef fn := Fun ["x"; "y"] [Tcls Cvec4; Tcls Cvec4] (RVal (Tcls Cvec4)) [] (
  Return (Call vec4__float_float_float_float <<Call max_float_float <<Read (LFld (LVar "x") 0); Read (LFld (LVar "y") 0)>>; Call max_float_float <<Read
    (LFld (LVar "x") 1); Read (LFld (LVar "y") 1)>>; Call max_float_float <<Read (LFld (LVar "x") 2); Read (LFld (LVar "y") 2)>>; Call max_float_float
    <<Read (LFld (LVar "x") 3); Read (LFld (LVar "y") 3)>>>>)).
(** src/common.cpp 223-226 *)
Definition c_max_int_int : fundef fn := Fun ["x"; "y"] [Tint; Tint] (RVal Tint) [] (
  Return (Cond (Bin Olt (Var "x") (Var "y")) (Var "y") (Var "x"))).
(** src/common.cpp 228-231 *)
Definition c_max_ivec2_ivec2 : fundef fn := Fun ["x"; "y"] [Tcls Civec2; Tcls Civec2] (RVal (Tcls Civec2)) [] (
  Return (Call ivec2__int_int <<Call max_int_int <<Read (LFld (LVar "x") 0); Read (LFld (LVar "y") 0)>>; Call max_int_int <<Read (LFld (LVar "x") 1);
    Read (LFld (LVar "y") 1)>>>>)).
(** src/common.cpp 233-236 *)
Definition c_max_ivec3_ivec3 : fundef fn := Fun ["x"; "y"] [Tcls Civec3; Tcls Civec3] (RVal (Tcls Civec3)) [] (
  Return (Call ivec3__int_int_int <<Call max_int_int <<Read (LFld (LVar "x") 0); Read (LFld (LVar "y") 0)>>; Call max_int_int <<Read (LFld (LVar "x")
    1); Read (LFld (LVar "y") 1)>>; Call max_int_int <<Read (LFld (LVar "x") 2); Read (LFld (LVar "y") 2)>>>>)).
(** src/common.cpp 238-241 *)
Definition c_max_ivec4_ivec4 : fundef fn := Fun ["x"; "y"] [Tcls Civec4; Tcls Civec4] (RVal (Tcls Civec4)) [] (
  Return (Call ivec4__int_int_int_int <<Call max_int_int <<Read (LFld (LVar "x") 0); Read (LFld (LVar "y") 0)>>; Call max_int_int <<Read (LFld (LVar
    "x") 1); Read (LFld (LVar "y") 1)>>; Call max_int_int <<Read (LFld (LVar "x") 2); Read (LFld (LVar "y") 2)>>; Call max_int_int <<Read (LFld (LVar
    "x") 3); Read (LFld (LVar "y") 3)>>>>)).
(** src/common.cpp 247-250 *)
Definition c_min_float_float : fundef fn := Fun ["x"; "y"] [Tfloat; Tfloat] (RVal Tfloat) [] (
  Return (Cond (Bin Olt (Var "y") (Var "x")) (Var "y") (Var "x"))).
(** src/common.cpp 252-255 *)
Definition c_min_vec2_vec2 : fundef fn := Fun ["x"; "y"] [Tcls Cvec2; Tcls Cvec2] (RVal (Tcls Cvec2)) [] (
  Return (Call vec2__float_float <<Call min_float_float <<Read (LFld (LVar "x") 0); Read (LFld (LVar "y") 0)>>; Call min_float_float <<Read (LFld (LVar
    "x") 1); Read (LFld (LVar "y") 1)>>>>)).
(** src/common.cpp 257-260 *)
Definition c_min_vec3_vec3 : fundef fn := Fun ["x"; "y"] [Tcls Cvec3; Tcls Cvec3] (RVal (Tcls Cvec3)) [] (
  Return (Call vec3__float_float_float <<Call min_float_float <<Read (LFld (LVar "x") 0); Read (LFld (LVar "y") 0)>>; Call min_float_float <<Read (LFld
    (LVar "x") 1); Read (LFld (LVar "y") 1)>>; Call min_float_float <<Read (LFld (LVar "x") 2); Read (LFld (LVar "y") 2)>>>>)).
(** src/common.cpp 262-265 *)
Definition c_min_vec4_vec4 : fundef fn := Fun ["x"; "y"] [Tcls Cvec4; Tcls Cvec4] (RVal (Tcls Cvec4)) [] (
  Return (Call vec4__float_float_float_float <<Call min_float_float <<Read (LFld (LVar "x") 0); Read (LFld (LVar "y") 0)>>; Call min_float_float <<Read
    (LFld (LVar "x") 1); Read (LFld (LVar "y") 1)>>; Call min_float_float <<Read (LFld (LVar "x") 2); Read (LFld (LVar "y") 2)>>; Call min_float_float
    <<Read (LFld (LVar "x") 3); Read (LFld (LVar "y") 3)>>>>)).
(** src/common.cpp 267-270 *)
Definition c_min_int_int : fundef fn := Fun ["x"; "y"] [Tint; Tint] (RVal Tint) [] (
  Return (Cond (Bin Olt (Var "y") (Var "x")) (Var "y") (Var "x"))).
(** src/common.cpp 272-275 *)
Definition c_min_ivec2_ivec2 : fundef fn := Fun ["x"; "y"] [Tcls Civec2; Tcls Civec2] (RVal (Tcls Civec2)) [] (
  Return (Call ivec2__int_int <<Call min_int_int <<Read (LFld (LVar "x") 0); Read (LFld (LVar "y") 0)>>; Call min_int_int <<Read (LFld (LVar "x") 1);
    Read (LFld (LVar "y") 1)>>>>)).
(** src/common.cpp 277-280 *)
Definition c_min_ivec3_ivec3 : fundef fn := Fun ["x"; "y"] [Tcls Civec3; Tcls Civec3] (RVal (Tcls Civec3)) [] (
  Return (Call ivec3__int_int_int <<Call min_int_int <<Read (LFld (LVar "x") 0); Read (LFld (LVar "y") 0)>>; Call min_int_int <<Read (LFld (LVar "x")
    1); Read (LFld (LVar "y") 1)>>; Call min_int_int <<Read (LFld (LVar "x") 2); Read (LFld (LVar "y") 2)>>>>)).
(** src/common.cpp 282-285 *)
Definition c_min_ivec4_ivec4 : fundef fn := Fun ["x"; "y"] [Tcls Civec4; Tcls Civec4] (RVal (Tcls Civec4)) [] (
  Return (Call ivec4__int_int_int_int <<Call min_int_int <<Read (LFld (LVar "x") 0); Read (LFld (LVar "y") 0)>>; Call min_int_int <<Read (LFld (LVar
    "x") 1); Read (LFld (LVar "y") 1)>>; Call min_int_int <<Read (LFld (LVar "x") 2); Read (LFld (LVar "y") 2)>>; Call min_int_int <<Read (LFld (LVar
    "x") 3); Read (LFld (LVar "y") 3)>>>>)).
(** src/common.cpp 291-294 *)
Definition c_mod_float_float : fundef fn := Fun ["x"; "y"] [Tfloat; Tfloat] (RVal Tfloat) [] (
  Return (Bin Osub (Var "x") (Bin Omul (Var "y") (Call floor_float <<Bin Odiv (Var "x") (Var "y")>>)))).
(** src/common.cpp 296-299 *)
Definition c_mod_vec2_vec2 : fundef fn := Fun ["x"; "y"] [Tcls Cvec2; Tcls Cvec2] (RVal (Tcls Cvec2)) [] (
  Return (Call vec2__float_float <<Call mod_float_float <<Read (LFld (LVar "x") 0); Read (LFld (LVar "y") 0)>>; Call mod_float_float <<Read (LFld (LVar
    "x") 1); Read (LFld (LVar "y") 1)>>>>)).
(** src/common.cpp 301-304 *)
Definition c_mod_vec3_vec3 : fundef fn := Fun ["x"; "y"] [Tcls Cvec3; Tcls Cvec3] (RVal (Tcls Cvec3)) [] (
  Return (Call vec3__float_float_float <<Call mod_float_float <<Read (LFld (LVar "x") 0); Read (LFld (LVar "y") 0)>>; Call mod_float_float <<Read (LFld
    (LVar "x") 1); Read (LFld (LVar "y") 1)>>; Call mod_float_float <<Read (LFld (LVar "x") 2); Read (LFld (LVar "y") 2)>>>>)).
(** src/common.cpp 306-309 *)
Definition c_mod_vec4_vec4 : fundef fn := Fun ["x"; "y"] [Tcls Cvec4; Tcls Cvec4] (RVal (Tcls Cvec4)) [] (
  Return (Call vec4__float_float_float_float <<Call mod_float_float <<Read (LFld (LVar "x") 0); Read (LFld (LVar "y") 0)>>; Call mod_float_float <<Read
    (LFld (LVar "x") 1); Read (LFld (LVar "y") 1)>>; Call mod_float_float <<Read (LFld (LVar "x") 2); Read (LFld (LVar "y") 2)>>; Call mod_float_float
    <<Read (LFld (LVar "x") 3); Read (LFld (LVar "y") 3)>>>>)).
(** src/common.cpp 311-314 *)
Definition c_mod_vec2_float : fundef fn := Fun ["x"; "y"] [Tcls Cvec2; Tfloat] (RVal (Tcls Cvec2)) [] (
  Return (Call vec2__float_float <<Call mod_float_float <<Read (LFld (LVar "x") 0); Var "y">>; Call mod_float_float <<Read (LFld (LVar "x") 1); Var
    "y">>>>)).
(** src/common.cpp 316-319 *)
Definition c_mod_vec3_float : fundef fn := Fun ["x"; "y"] [Tcls Cvec3; Tfloat] (RVal (Tcls Cvec3)) [] (
  Return (Call vec3__float_float_float <<Call mod_float_float <<Read (LFld (LVar "x") 0); Var "y">>; Call mod_float_float <<Read (LFld (LVar "x") 1);
    Var "y">>; Call mod_float_float <<Read (LFld (LVar "x") 2); Var "y">>>>)).
(** src/common.cpp 321-324 *)
Definition c_mod_vec4_float : fundef fn := Fun ["x"; "y"] [Tcls Cvec4; Tfloat] (RVal (Tcls Cvec4)) [] (
  Return (Call vec4__float_float_float_float <<Call mod_float_float <<Read (LFld (LVar "x") 0); Var "y">>; Call mod_float_float <<Read (LFld (LVar "x")
    1); Var "y">>; Call mod_float_float <<Read (LFld (LVar "x") 2); Var "y">>; Call mod_float_float <<Read (LFld (LVar "x") 3); Var "y">>>>)).
(** src/common.cpp 330-333 *)
Definition c_round_float : fundef fn := Fun ["x"] [Tfloat] (RVal Tfloat) [] (
  Return (Prim Proundf <<Var "x">>)).
(** src/common.cpp 335-338 *)
Definition c_round_vec2 : fundef fn := Fun ["x"] [Tcls Cvec2] (RVal (Tcls Cvec2)) [] (
  Return (Call vec2__float_float <<Call round_float <<Read (LFld (LVar "x") 0)>>; Call round_float <<Read (LFld (LVar "x") 1)>>>>)).
(** src/common.cpp 340-343 *)
Definition c_round_vec3 : fundef fn := Fun ["x"] [Tcls Cvec3] (RVal (Tcls Cvec3)) [] (
  Return (Call vec3__float_float_float <<Call round_float <<Read (LFld (LVar "x") 0)>>; Call round_float <<Read (LFld (LVar "x") 1)>>; Call round_float
    <<Read (LFld (LVar "x") 2)>>>>)).
(** src/common.cpp 345-348 *)
Definition c_round_vec4 : fundef fn := Fun ["x"] [Tcls Cvec4] (RVal (Tcls Cvec4)) [] (
  Return (Call vec4__float_float_float_float <<Call round_float <<Read (LFld (LVar "x") 0)>>; Call round_float <<Read (LFld (LVar "x") 1)>>; Call
    round_float <<Read (LFld (LVar "x") 2)>>; Call round_float <<Read (LFld (LVar "x") 3)>>>>)).
(** src/common.cpp 354-357 *)
Definition c_roundEven_float : fundef fn := Fun ["x"] [Tfloat] (RVal Tfloat) [] (
  Return (Bin Omul (Prim Pnearbyint <<Bin Omul (Var "x") (Lit 5 (-1))>>) (Lit 2 0))).
(** src/common.cpp 359-362 *)
Definition c_roundEven_vec2 : fundef fn := Fun ["x"] [Tcls Cvec2] (RVal (Tcls Cvec2)) [] (
  Return (Call vec2__float_float <<Call roundEven_float <<Read (LFld (LVar "x") 0)>>; Call roundEven_float <<Read (LFld (LVar "x") 1)>>>>)).
(** src/common.cpp 364-367 *)
Definition c_roundEven_vec3 : fundef fn := Fun ["x"] [Tcls Cvec3] (RVal (Tcls Cvec3)) [] (
  Return (Call vec3__float_float_float <<Call roundEven_float <<Read (LFld (LVar "x") 0)>>; Call roundEven_float <<Read (LFld (LVar "x") 1)>>; Call
    roundEven_float <<Read (LFld (LVar "x") 2)>>>>)).
(** src/common.cpp 369-372 *)
Definition c_roundEven_vec4 : fundef fn := Fun ["x"] [Tcls Cvec4] (RVal (Tcls Cvec4)) [] (
  Return (Call vec4__float_float_float_float <<Call roundEven_float <<Read (LFld (LVar "x") 0)>>; Call roundEven_float <<Read (LFld (LVar "x") 1)>>;
    Call roundEven_float <<Read (LFld (LVar "x") 2)>>; Call roundEven_float <<Read (LFld (LVar "x") 3)>>>>)).
(** src/common.cpp 378-387 *)
Definition c_sign_float : fundef fn := Fun ["x"] [Tfloat] (RVal Tfloat) [] (
  If (Bin Oeq (Var "x") (Lit 0 0)) (Return (Lit 0 0)) Skip;;
  If (Bin Ogt (Var "x") (Lit 0 0)) (Return (Lit 1 0)) Skip;;
  Return (Un Oneg (Lit 1 0))).
(** src/common.cpp 389-392 *)
Definition c_sign_vec2 : fundef fn := Fun ["x"] [Tcls Cvec2] (RVal (Tcls Cvec2)) [] (
  Return (Call vec2__float_float <<Call sign_float <<Read (LFld (LVar "x") 0)>>; Call sign_float <<Read (LFld (LVar "x") 1)>>>>)).
(** src/common.cpp 394-397 *)
Definition c_sign_vec3 : fundef fn := Fun ["x"] [Tcls Cvec3] (RVal (Tcls Cvec3)) [] (
  Return (Call vec3__float_float_float <<Call sign_float <<Read (LFld (LVar "x") 0)>>; Call sign_float <<Read (LFld (LVar "x") 1)>>; Call sign_float
    <<Read (LFld (LVar "x") 2)>>>>)).
(** src/common.cpp 399-402 *)
Definition c_sign_vec4 : fundef fn := Fun ["x"] [Tcls Cvec4] (RVal (Tcls Cvec4)) [] (
  Return (Call vec4__float_float_float_float <<Call sign_float <<Read (LFld (LVar "x") 0)>>; Call sign_float <<Read (LFld (LVar "x") 1)>>; Call
    sign_float <<Read (LFld (LVar "x") 2)>>; Call sign_float <<Read (LFld (LVar "x") 3)>>>>)).
(** src/common.cpp 404-413 *)
Definition c_sign_int : fundef fn := Fun ["x"] [Tint] (RVal Tint) [] (
  If (Bin Oeq (Var "x") (Int 0)) (Return (Int 0)) Skip;;
  If (Bin Ogt (Var "x") (Int 0)) (Return (Int 1)) Skip;;
  Return (Un Oneg (Int 1))).
(** src/common.cpp 415-418 *)
Definition c_sign_ivec2 : fundef fn := Fun ["x"] [Tcls Civec2] (RVal (Tcls Civec2)) [] (
  Return (Call ivec2__int_int <<Call sign_int <<Read (LFld (LVar "x") 0)>>; Call sign_int <<Read (LFld (LVar "x") 1)>>>>)).
(** src/common.cpp 420-423 *)
Definition c_sign_ivec3 : fundef fn := Fun ["x"] [Tcls Civec3] (RVal (Tcls Civec3)) [] (
  Return (Call ivec3__int_int_int <<Call sign_int <<Read (LFld (LVar "x") 0)>>; Call sign_int <<Read (LFld (LVar "x") 1)>>; Call sign_int <<Read (LFld
    (LVar "x") 2)>>>>)).
(** src/common.cpp 425-428 *)
Definition c_sign_ivec4 : fundef fn := Fun ["x"] [Tcls Civec4] (RVal (Tcls Civec4)) [] (
  Return (Call ivec4__int_int_int_int <<Call sign_int <<Read (LFld (LVar "x") 0)>>; Call sign_int <<Read (LFld (LVar "x") 1)>>; Call sign_int <<Read
    (LFld (LVar "x") 2)>>; Call sign_int <<Read (LFld (LVar "x") 3)>>>>)).
(** src/common.cpp 430-433 *)
Definition c_signNotZero_float : fundef fn := Fun ["x"] [Tfloat] (RVal Tfloat) [] (
  Return (Cond (Bin Oge (Var "x") (Lit 0 0)) (Un Oplus (Lit 1 0)) (Un Oneg (Lit 1 0)))).
(** src/common.cpp 435-438 *)
Definition c_signNotZero_vec2 : fundef fn := Fun ["x"] [Tcls Cvec2] (RVal (Tcls Cvec2)) [] (
  Return (Call vec2__float_float <<Call signNotZero_float <<Read (LFld (LVar "x") 0)>>; Call signNotZero_float <<Read (LFld (LVar "x") 1)>>>>)).
(** src/common.cpp 440-443 *)
Definition c_signNotZero_vec3 : fundef fn := Fun ["x"] [Tcls Cvec3] (RVal (Tcls Cvec3)) [] (
  Return (Call vec3__float_float_float <<Call signNotZero_float <<Read (LFld (LVar "x") 0)>>; Call signNotZero_float <<Read (LFld (LVar "x") 1)>>; Call
    signNotZero_float <<Read (LFld (LVar "x") 2)>>>>)).
(** src/common.cpp 445-448 *)
Definition c_signNotZero_vec4 : fundef fn := Fun ["x"] [Tcls Cvec4] (RVal (Tcls Cvec4)) [] (
  Return (Call vec4__float_float_float_float <<Call signNotZero_float <<Read (LFld (LVar "x") 0)>>; Call signNotZero_float <<Read (LFld (LVar "x") 1)>>;
    Call signNotZero_float <<Read (LFld (LVar "x") 2)>>; Call signNotZero_float <<Read (LFld (LVar "x") 3)>>>>)).
(** src/common.cpp 450-453 *)
Definition c_signNotZero_int : fundef fn := Fun ["x"] [Tint] (RVal Tint) [] (
  Return (Cond (Bin Oge (Var "x") (Int 0)) (Int 1) (Un Oneg (Int 1)))).
(** src/common.cpp 455-458 *)
Definition c_signNotZero_ivec2 : fundef fn := Fun ["x"] [Tcls Civec2] (RVal (Tcls Civec2)) [] (
  Return (Call ivec2__int_int <<Call signNotZero_int <<Read (LFld (LVar "x") 0)>>; Call signNotZero_int <<Read (LFld (LVar "x") 1)>>>>)).
(** src/common.cpp 460-463 *)
Definition c_signNotZero_ivec3 : fundef fn := Fun ["x"] [Tcls Civec3] (RVal (Tcls Civec3)) [] (
  Return (Call ivec3__int_int_int <<Call signNotZero_int <<Read (LFld (LVar "x") 0)>>; Call signNotZero_int <<Read (LFld (LVar "x") 1)>>; Call
    signNotZero_int <<Read (LFld (LVar "x") 2)>>>>)).
(** src/common.cpp 465-468 *)
Definition c_signNotZero_ivec4 : fundef fn := Fun ["x"] [Tcls Civec4] (RVal (Tcls Civec4)) [] (
  Return (Call ivec4__int_int_int_int <<Call signNotZero_int <<Read (LFld (LVar "x") 0)>>; Call signNotZero_int <<Read (LFld (LVar "x") 1)>>; Call
    signNotZero_int <<Read (LFld (LVar "x") 2)>>; Call signNotZero_int <<Read (LFld (LVar "x") 3)>>>>)).
(** src/common.cpp 475-478 *)
Definition c_trunc_float : fundef fn := Fun ["x"] [Tfloat] (RVal Tfloat) [] (
  Return (Prim Ptruncf <<Var "x">>)).
(** src/common.cpp 480-483 *)
Definition c_trunc_vec2 : fundef fn := Fun ["x"] [Tcls Cvec2] (RVal (Tcls Cvec2)) [] (
  Return (Call vec2__float_float <<Call trunc_float <<Read (LFld (LVar "x") 0)>>; Call trunc_float <<Read (LFld (LVar "x") 1)>>>>)).
(** src/common.cpp 485-488 *)
Definition c_trunc_vec3 : fundef fn := Fun ["x"] [Tcls Cvec3] (RVal (Tcls Cvec3)) [] (
  Return (Call vec3__float_float_float <<Call trunc_float <<Read (LFld (LVar "x") 0)>>; Call trunc_float <<Read (LFld (LVar "x") 1)>>; Call trunc_float
    <<Read (LFld (LVar "x") 2)>>>>)).
(** src/common.cpp 490-493 *)
Definition c_trunc_vec4 : fundef fn := Fun ["x"] [Tcls Cvec4] (RVal (Tcls Cvec4)) [] (
  Return (Call vec4__float_float_float_float <<Call trunc_float <<Read (LFld (LVar "x") 0)>>; Call trunc_float <<Read (LFld (LVar "x") 1)>>; Call
    trunc_float <<Read (LFld (LVar "x") 2)>>; Call trunc_float <<Read (LFld (LVar "x") 3)>>>>)).
(** src/common.cpp 499-503 *)
Definition c_smoothstep_float_float_float : fundef fn := Fun ["edge0"; "edge1"; "x"] [Tfloat; Tfloat; Tfloat] (RVal Tfloat) [] (
  Decl "tmp" (Some (Call clamp_float_float_float <<Bin Odiv (Bin Osub (Var "x") (Var "edge0")) (Bin Osub (Var "edge1") (Var "edge0")); Lit 0 0; Lit 1
    0>>));;
  Return (Bin Omul (Bin Omul (Var "tmp") (Var "tmp")) (Bin Osub (Lit 3 0) (Bin Omul (Lit 2 0) (Var "tmp"))))).
(** src/common.cpp 505-509 *)
Definition c_smoothstep_vec2_vec2_vec2 : fundef fn := Fun ["edge0"; "edge1"; "x"] [Tcls Cvec2; Tcls Cvec2; Tcls Cvec2] (RVal (Tcls Cvec2)) [] (
  Decl "tmp" (Some (Call clamp_vec2_vec2_vec2 <<Call op_div_vec2_vec2 <<Call op_sub_vec2_vec2 <<Var "x"; Var "edge0">>; Call op_sub_vec2_vec2 <<Var
    "edge1"; Var "edge0">>>>; Call vec2__float <<Lit 0 0>>; Call vec2__float <<Lit 1 0>>>>));;
  Return (Call op_mul_vec2_vec2 <<Call op_mul_vec2_vec2 <<Var "tmp"; Var "tmp">>; Call op_sub_float_vec2 <<Lit 3 0; Call op_mul_float_vec2 <<Lit 2 0;
    Var "tmp">>>>>>)).
(** src/common.cpp 511-515 *)
Definition c_smoothstep_vec3_vec3_vec3 : fundef fn := Fun ["edge0"; "edge1"; "x"] [Tcls Cvec3; Tcls Cvec3; Tcls Cvec3] (RVal (Tcls Cvec3)) [] (
  Decl "tmp" (Some (Call clamp_vec3_vec3_vec3 <<Call op_div_vec3_vec3 <<Call op_sub_vec3_vec3 <<Var "x"; Var "edge0">>; Call op_sub_vec3_vec3 <<Var
    "edge1"; Var "edge0">>>>; Call vec3__float <<Lit 0 0>>; Call vec3__float <<Lit 1 0>>>>));;
  Return (Call op_mul_vec3_vec3 <<Call op_mul_vec3_vec3 <<Var "tmp"; Var "tmp">>; Call op_sub_float_vec3 <<Lit 3 0; Call op_mul_float_vec3 <<Lit 2 0;
    Var "tmp">>>>>>)).
(** src/common.cpp 518-522 *)
Definition c_smoothstep_vec4_vec4_vec4 : fundef fn := Fun ["edge0"; "edge1"; "x"] [Tcls Cvec4; Tcls Cvec4; Tcls Cvec4] (RVal (Tcls Cvec4)) [] (
  Decl "tmp" (Some (Call clamp_vec4_vec4_vec4 <<Call op_div_vec4_vec4 <<Call op_sub_vec4_vec4 <<Var "x"; Var "edge0">>; Call op_sub_vec4_vec4 <<Var
    "edge1"; Var "edge0">>>>; Call vec4__float <<Lit 0 0>>; Call vec4__float <<Lit 1 0>>>>));;
  Return (Call op_mul_vec4_vec4 <<Call op_mul_vec4_vec4 <<Var "tmp"; Var "tmp">>; Call op_sub_float_vec4 <<Lit 3 0; Call op_mul_float_vec4 <<Lit 2 0;
    Var "tmp">>>>>>)).
(** src/common.cpp 528-531 *)
Definition c_step_float_float : fundef fn := Fun ["edge"; "x"] [Tfloat; Tfloat] (RVal Tfloat) [] (
  Return (Cond (Bin Olt (Var "x") (Var "edge")) (Lit 0 0) (Lit 1 0))).
(** src/common.cpp 533-536 *)
Definition c_step_vec2_vec2 : fundef fn := Fun ["edge"; "t"] [Tcls Cvec2; Tcls Cvec2] (RVal (Tcls Cvec2)) [] (
  Return (Call vec2__float_float <<Call step_float_float <<Read (LFld (LVar "edge") 0); Read (LFld (LVar "t") 0)>>; Call step_float_float <<Read (LFld
    (LVar "edge") 1); Read (LFld (LVar "t") 1)>>>>)).
(** src/common.cpp 538-541 *)
Definition c_step_vec3_vec3 : fundef fn := Fun ["edge"; "t"] [Tcls Cvec3; Tcls Cvec3] (RVal (Tcls Cvec3)) [] (
  Return (Call vec3__float_float_float <<Call step_float_float <<Read (LFld (LVar "edge") 0); Read (LFld (LVar "t") 0)>>; Call step_float_float <<Read
    (LFld (LVar "edge") 1); Read (LFld (LVar "t") 1)>>; Call step_float_float <<Read (LFld (LVar "edge") 2); Read (LFld (LVar "t") 2)>>>>)).
(** src/common.cpp 543-546 *)
Definition c_step_vec4_vec4 : fundef fn := Fun ["edge"; "t"] [Tcls Cvec4; Tcls Cvec4] (RVal (Tcls Cvec4)) [] (
  Return (Call vec4__float_float_float_float <<Call step_float_float <<Read (LFld (LVar "edge") 0); Read (LFld (LVar "t") 0)>>; Call step_float_float
    <<Read (LFld (LVar "edge") 1); Read (LFld (LVar "t") 1)>>; Call step_float_float <<Read (LFld (LVar "edge") 2); Read (LFld (LVar "t") 2)>>; Call
    step_float_float <<Read (LFld (LVar "edge") 3); Read (LFld (LVar "t") 3)>>>>)).
(** src/common.cpp 552-555 *)
Definition c_mix_float_float_float : fundef fn := Fun ["x"; "y"; "t"] [Tfloat; Tfloat; Tfloat] (RVal Tfloat) [] (
  Return (Bin Oadd (Var "x") (Bin Omul (Var "t") (Bin Osub (Var "y") (Var "x"))))).
(** src/common.cpp 557-561 *)
Definition c_mix_vec2_vec2_vec2 : fundef fn := Fun ["x"; "y"; "t"] [Tcls Cvec2; Tcls Cvec2; Tcls Cvec2] (RVal (Tcls Cvec2)) [] (
  Return (Call vec2__float_float <<Call mix_float_float_float <<Read (LFld (LVar "x") 0); Read (LFld (LVar "y") 0); Read (LFld (LVar "t") 0)>>; Call
    mix_float_float_float <<Read (LFld (LVar "x") 1); Read (LFld (LVar "y") 1); Read (LFld (LVar "t") 1)>>>>)).
(** src/common.cpp 563-568 *)
Definition c_mix_vec3_vec3_vec3 : fundef fn := Fun ["x"; "y"; "t"] [Tcls Cvec3; Tcls Cvec3; Tcls Cvec3] (RVal (Tcls Cvec3)) [] (
  Return (Call vec3__float_float_float <<Call mix_float_float_float <<Read (LFld (LVar "x") 0); Read (LFld (LVar "y") 0); Read (LFld (LVar "t") 0)>>;
    Call mix_float_float_float <<Read (LFld (LVar "x") 1); Read (LFld (LVar "y") 1); Read (LFld (LVar "t") 1)>>; Call mix_float_float_float <<Read
    (LFld (LVar "x") 2); Read (LFld (LVar "y") 2); Read (LFld (LVar "t") 2)>>>>)).
(** src/common.cpp 570-576 *)
Definition c_mix_vec4_vec4_vec4 : fundef fn := Fun ["x"; "y"; "t"] [Tcls Cvec4; Tcls Cvec4; Tcls Cvec4] (RVal (Tcls Cvec4)) [] (
  Return (Call vec4__float_float_float_float <<Call mix_float_float_float <<Read (LFld (LVar "x") 0); Read (LFld (LVar "y") 0); Read (LFld (LVar "t")
    0)>>; Call mix_float_float_float <<Read (LFld (LVar "x") 1); Read (LFld (LVar "y") 1); Read (LFld (LVar "t") 1)>>; Call mix_float_float_float
    <<Read (LFld (LVar "x") 2); Read (LFld (LVar "y") 2); Read (LFld (LVar "t") 2)>>; Call mix_float_float_float <<Read (LFld (LVar "x") 3); Read
    (LFld (LVar "y") 3); Read (LFld (LVar "t") 3)>>>>)).
(** src/common.cpp 579-583 *)
Definition c_mix_vec2_vec2_float : fundef fn := Fun ["x"; "y"; "t"] [Tcls Cvec2; Tcls Cvec2; Tfloat] (RVal (Tcls Cvec2)) [] (
  Return (Call vec2__float_float <<Call mix_float_float_float <<Read (LFld (LVar "x") 0); Read (LFld (LVar "y") 0); Var "t">>; Call
    mix_float_float_float <<Read (LFld (LVar "x") 1); Read (LFld (LVar "y") 1); Var "t">>>>)).
(** src/common.cpp 585-590 *)
Definition c_mix_vec3_vec3_float : fundef fn := Fun ["x"; "y"; "t"] [Tcls Cvec3; Tcls Cvec3; Tfloat] (RVal (Tcls Cvec3)) [] (
  Return (Call vec3__float_float_float <<Call mix_float_float_float <<Read (LFld (LVar "x") 0); Read (LFld (LVar "y") 0); Var "t">>; Call
    mix_float_float_float <<Read (LFld (LVar "x") 1); Read (LFld (LVar "y") 1); Var "t">>; Call mix_float_float_float <<Read (LFld (LVar "x") 2); Read
    (LFld (LVar "y") 2); Var "t">>>>)).
(** src/common.cpp 592-598 *)
Definition c_mix_vec4_vec4_float : fundef fn := Fun ["x"; "y"; "t"] [Tcls Cvec4; Tcls Cvec4; Tfloat] (RVal (Tcls Cvec4)) [] (
  Return (Call vec4__float_float_float_float <<Call mix_float_float_float <<Read (LFld (LVar "x") 0); Read (LFld (LVar "y") 0); Var "t">>; Call
    mix_float_float_float <<Read (LFld (LVar "x") 1); Read (LFld (LVar "y") 1); Var "t">>; Call mix_float_float_float <<Read (LFld (LVar "x") 2); Read
    (LFld (LVar "y") 2); Var "t">>; Call mix_float_float_float <<Read (LFld (LVar "x") 3); Read (LFld (LVar "y") 3); Var "t">>>>)).
(** src/common.cpp 603-606 *)
Definition c_mix_float_float_bool : fundef fn := Fun ["x"; "y"; "t"] [Tfloat; Tfloat; Tbool] (RVal Tfloat) [] (
  Return (Cond (Var "t") (Var "y") (Var "x"))).
(** src/common.cpp 608-612 *)
Definition c_mix_vec2_vec2_bvec2 : fundef fn := Fun ["x"; "y"; "t"] [Tcls Cvec2; Tcls Cvec2; Tcls Cbvec2] (RVal (Tcls Cvec2)) [] (
  Return (Call vec2__float_float <<Call mix_float_float_bool <<Read (LFld (LVar "x") 0); Read (LFld (LVar "y") 0); Read (LFld (LVar "t") 0)>>; Call
    mix_float_float_bool <<Read (LFld (LVar "x") 1); Read (LFld (LVar "y") 1); Read (LFld (LVar "t") 1)>>>>)).
(** src/common.cpp 614-619 *)
Definition c_mix_vec3_vec3_bvec3 : fundef fn := Fun ["x"; "y"; "t"] [Tcls Cvec3; Tcls Cvec3; Tcls Cbvec3] (RVal (Tcls Cvec3)) [] (
  Return (Call vec3__float_float_float <<Call mix_float_float_bool <<Read (LFld (LVar "x") 0); Read (LFld (LVar "y") 0); Read (LFld (LVar "t") 0)>>;
    Call mix_float_float_bool <<Read (LFld (LVar "x") 1); Read (LFld (LVar "y") 1); Read (LFld (LVar "t") 1)>>; Call mix_float_float_bool <<Read (LFld
    (LVar "x") 2); Read (LFld (LVar "y") 2); Read (LFld (LVar "t") 2)>>>>)).
(** src/common.cpp 621-627 *)
Definition c_mix_vec4_vec4_bvec4 : fundef fn := Fun ["x"; "y"; "t"] [Tcls Cvec4; Tcls Cvec4; Tcls Cbvec4] (RVal (Tcls Cvec4)) [] (
  Return (Call vec4__float_float_float_float <<Call mix_float_float_bool <<Read (LFld (LVar "x") 0); Read (LFld (LVar "y") 0); Read (LFld (LVar "t")
    0)>>; Call mix_float_float_bool <<Read (LFld (LVar "x") 1); Read (LFld (LVar "y") 1); Read (LFld (LVar "t") 1)>>; Call mix_float_float_bool <<Read
    (LFld (LVar "x") 2); Read (LFld (LVar "y") 2); Read (LFld (LVar "t") 2)>>; Call mix_float_float_bool <<Read (LFld (LVar "x") 3); Read (LFld (LVar
    "y") 3); Read (LFld (LVar "t") 3)>>>>)).
(** src/common.cpp 633-636 *)
Definition c_isinf_float : fundef fn := Fun ["x"] [Tfloat] (RVal Tbool) [] (
  Return (Prim Pisinf <<Var "x">>)).
(** src/common.cpp 638-641 *)
Definition c_isinf_vec2 : fundef fn := Fun ["x"] [Tcls Cvec2] (RVal (Tcls Cbvec2)) [] (
  Return (Call bvec2__bool_bool <<Call isinf_float <<Read (LFld (LVar "x") 0)>>; Call isinf_float <<Read (LFld (LVar "x") 1)>>>>)).
(** src/common.cpp 643-646 *)
Definition c_isinf_vec3 : fundef fn := Fun ["x"] [Tcls Cvec3] (RVal (Tcls Cbvec3)) [] (
  Return (Call bvec3__bool_bool_bool <<Call isinf_float <<Read (LFld (LVar "x") 0)>>; Call isinf_float <<Read (LFld (LVar "x") 1)>>; Call isinf_float
    <<Read (LFld (LVar "x") 2)>>>>)).
(** src/common.cpp 648-651 *)
Definition c_isinf_vec4 : fundef fn := Fun ["x"] [Tcls Cvec4] (RVal (Tcls Cbvec4)) [] (
  Return (Call bvec4__bool_bool_bool_bool <<Call isinf_float <<Read (LFld (LVar "x") 0)>>; Call isinf_float <<Read (LFld (LVar "x") 1)>>; Call
    isinf_float <<Read (LFld (LVar "x") 2)>>; Call isinf_float <<Read (LFld (LVar "x") 3)>>>>)).
(** src/common.cpp 653-656 *)
Definition c_isinf_quat : fundef fn := Fun ["x"] [Tcls Cquat] (RVal (Tcls Cbvec4)) [] (
  Return (Call bvec4__bool_bool_bool_bool <<Call isinf_float <<Read (LFld (LVar "x") 0)>>; Call isinf_float <<Read (LFld (LVar "x") 1)>>; Call
    isinf_float <<Read (LFld (LVar "x") 2)>>; Call isinf_float <<Read (LFld (LVar "x") 3)>>>>)).
(** src/common.cpp 662-665 *)
Definition c_isnan_float : fundef fn := Fun ["x"] [Tfloat] (RVal Tbool) [] (
  Return (Prim Pisnan <<Var "x">>)).
(** src/common.cpp 667-670 *)
Definition c_isnan_vec2 : fundef fn := Fun ["x"] [Tcls Cvec2] (RVal (Tcls Cbvec2)) [] (
  Return (Call bvec2__bool_bool <<Call isnan_float <<Read (LFld (LVar "x") 0)>>; Call isnan_float <<Read (LFld (LVar "x") 1)>>>>)).
(** src/common.cpp 672-675 *)
Definition c_isnan_vec3 : fundef fn := Fun ["x"] [Tcls Cvec3] (RVal (Tcls Cbvec3)) [] (
  Return (Call bvec3__bool_bool_bool <<Call isnan_float <<Read (LFld (LVar "x") 0)>>; Call isnan_float <<Read (LFld (LVar "x") 1)>>; Call isnan_float
    <<Read (LFld (LVar "x") 2)>>>>)).
(** src/common.cpp 677-680 *)
Definition c_isnan_vec4 : fundef fn := Fun ["x"] [Tcls Cvec4] (RVal (Tcls Cbvec4)) [] (
  Return (Call bvec4__bool_bool_bool_bool <<Call isnan_float <<Read (LFld (LVar "x") 0)>>; Call isnan_float <<Read (LFld (LVar "x") 1)>>; Call
    isnan_float <<Read (LFld (LVar "x") 2)>>; Call isnan_float <<Read (LFld (LVar "x") 3)>>>>)).
(** src/common.cpp 682-685 *)
Definition c_isnan_quat : fundef fn := Fun ["x"] [Tcls Cquat] (RVal (Tcls Cbvec4)) [] (
  Return (Call bvec4__bool_bool_bool_bool <<Call isnan_float <<Read (LFld (LVar "x") 0)>>; Call isnan_float <<Read (LFld (LVar "x") 1)>>; Call
    isnan_float <<Read (LFld (LVar "x") 2)>>; Call isnan_float <<Read (LFld (LVar "x") 3)>>>>)).
(** src/common.cpp 691-694 *)
Definition c_lessThan_vec2_vec2 : fundef fn := Fun ["x"; "y"] [Tcls Cvec2; Tcls Cvec2] (RVal (Tcls Cbvec2)) [] (
  Return (Call bvec2__bool_bool <<Bin Olt (Read (LFld (LVar "x") 0)) (Read (LFld (LVar "y") 0)); Bin Olt (Read (LFld (LVar "x") 1)) (Read (LFld (LVar
    "y") 1))>>)).
(** src/common.cpp 696-699 *)
Definition c_lessThan_vec3_vec3 : fundef fn := Fun ["x"; "y"] [Tcls Cvec3; Tcls Cvec3] (RVal (Tcls Cbvec3)) [] (
  Return (Call bvec3__bool_bool_bool <<Bin Olt (Read (LFld (LVar "x") 0)) (Read (LFld (LVar "y") 0)); Bin Olt (Read (LFld (LVar "x") 1)) (Read (LFld
    (LVar "y") 1)); Bin Olt (Read (LFld (LVar "x") 2)) (Read (LFld (LVar "y") 2))>>)).
(** src/common.cpp 701-704 *)
Definition c_lessThan_vec4_vec4 : fundef fn := Fun ["x"; "y"] [Tcls Cvec4; Tcls Cvec4] (RVal (Tcls Cbvec4)) [] (
  Return (Call bvec4__bool_bool_bool_bool <<Bin Olt (Read (LFld (LVar "x") 0)) (Read (LFld (LVar "y") 0)); Bin Olt (Read (LFld (LVar "x") 1)) (Read
    (LFld (LVar "y") 1)); Bin Olt (Read (LFld (LVar "x") 2)) (Read (LFld (LVar "y") 2)); Bin Olt (Read (LFld (LVar "x") 3)) (Read (LFld (LVar "y")
    3))>>)).
(** src/common.cpp 710-713 *)
Definition c_lessThanEqual_vec2_vec2 : fundef fn := Fun ["x"; "y"] [Tcls Cvec2; Tcls Cvec2] (RVal (Tcls Cbvec2)) [] (
  Return (Call bvec2__bool_bool <<Bin Ole (Read (LFld (LVar "x") 0)) (Read (LFld (LVar "y") 0)); Bin Ole (Read (LFld (LVar "x") 1)) (Read (LFld (LVar
    "y") 1))>>)).
(** src/common.cpp 715-718 *)
Definition c_lessThanEqual_vec3_vec3 : fundef fn := Fun ["x"; "y"] [Tcls Cvec3; Tcls Cvec3] (RVal (Tcls Cbvec3)) [] (
  Return (Call bvec3__bool_bool_bool <<Bin Ole (Read (LFld (LVar "x") 0)) (Read (LFld (LVar "y") 0)); Bin Ole (Read (LFld (LVar "x") 1)) (Read (LFld
    (LVar "y") 1)); Bin Ole (Read (LFld (LVar "x") 2)) (Read (LFld (LVar "y") 2))>>)).
(** src/common.cpp 720-723 *)
Definition c_lessThanEqual_vec4_vec4 : fundef fn := Fun ["x"; "y"] [Tcls Cvec4; Tcls Cvec4] (RVal (Tcls Cbvec4)) [] (
  Return (Call bvec4__bool_bool_bool_bool <<Bin Ole (Read (LFld (LVar "x") 0)) (Read (LFld (LVar "y") 0)); Bin Ole (Read (LFld (LVar "x") 1)) (Read
    (LFld (LVar "y") 1)); Bin Ole (Read (LFld (LVar "x") 2)) (Read (LFld (LVar "y") 2)); Bin Ole (Read (LFld (LVar "x") 3)) (Read (LFld (LVar "y")
    3))>>)).
(** src/common.cpp 729-732 *)
Definition c_greaterThan_vec2_vec2 : fundef fn := Fun ["x"; "y"] [Tcls Cvec2; Tcls Cvec2] (RVal (Tcls Cbvec2)) [] (
  Return (Call bvec2__bool_bool <<Bin Ogt (Read (LFld (LVar "x") 0)) (Read (LFld (LVar "y") 0)); Bin Ogt (Read (LFld (LVar "x") 1)) (Read (LFld (LVar
    "y") 1))>>)).
(** src/common.cpp 734-737 *)
Definition c_greaterThan_vec3_vec3 : fundef fn := Fun ["x"; "y"] [Tcls Cvec3; Tcls Cvec3] (RVal (Tcls Cbvec3)) [] (
  Return (Call bvec3__bool_bool_bool <<Bin Ogt (Read (LFld (LVar "x") 0)) (Read (LFld (LVar "y") 0)); Bin Ogt (Read (LFld (LVar "x") 1)) (Read (LFld
    (LVar "y") 1)); Bin Ogt (Read (LFld (LVar "x") 2)) (Read (LFld (LVar "y") 2))>>)).
(** src/common.cpp 739-742 *)
Definition c_greaterThan_vec4_vec4 : fundef fn := Fun ["x"; "y"] [Tcls Cvec4; Tcls Cvec4] (RVal (Tcls Cbvec4)) [] (
  Return (Call bvec4__bool_bool_bool_bool <<Bin Ogt (Read (LFld (LVar "x") 0)) (Read (LFld (LVar "y") 0)); Bin Ogt (Read (LFld (LVar "x") 1)) (Read
    (LFld (LVar "y") 1)); Bin Ogt (Read (LFld (LVar "x") 2)) (Read (LFld (LVar "y") 2)); Bin Ogt (Read (LFld (LVar "x") 3)) (Read (LFld (LVar "y")
    3))>>)).
(** src/common.cpp 748-751 *)
Definition c_greaterThanEqual_vec2_vec2 : fundef fn := Fun ["x"; "y"] [Tcls Cvec2; Tcls Cvec2] (RVal (Tcls Cbvec2)) [] (
  Return (Call bvec2__bool_bool <<Bin Oge (Read (LFld (LVar "x") 0)) (Read (LFld (LVar "y") 0)); Bin Oge (Read (LFld (LVar "x") 1)) (Read (LFld (LVar
    "y") 1))>>)).
(** src/common.cpp 753-756 *)
Definition c_greaterThanEqual_vec3_vec3 : fundef fn := Fun ["x"; "y"] [Tcls Cvec3; Tcls Cvec3] (RVal (Tcls Cbvec3)) [] (
  Return (Call bvec3__bool_bool_bool <<Bin Oge (Read (LFld (LVar "x") 0)) (Read (LFld (LVar "y") 0)); Bin Oge (Read (LFld (LVar "x") 1)) (Read (LFld
    (LVar "y") 1)); Bin Oge (Read (LFld (LVar "x") 2)) (Read (LFld (LVar "y") 2))>>)).
(** src/common.cpp 758-761 *)
Definition c_greaterThanEqual_vec4_vec4 : fundef fn := Fun ["x"; "y"] [Tcls Cvec4; Tcls Cvec4] (RVal (Tcls Cbvec4)) [] (
  Return (Call bvec4__bool_bool_bool_bool <<Bin Oge (Read (LFld (LVar "x") 0)) (Read (LFld (LVar "y") 0)); Bin Oge (Read (LFld (LVar "x") 1)) (Read
    (LFld (LVar "y") 1)); Bin Oge (Read (LFld (LVar "x") 2)) (Read (LFld (LVar "y") 2)); Bin Oge (Read (LFld (LVar "x") 3)) (Read (LFld (LVar "y")
    3))>>)).
(** src/common.cpp 767-770 *)
Definition c_equal_vec2_vec2 : fundef fn := Fun ["x"; "y"] [Tcls Cvec2; Tcls Cvec2] (RVal (Tcls Cbvec2)) [] (
  Return (Call bvec2__bool_bool <<Bin Oeq (Read (LFld (LVar "x") 0)) (Read (LFld (LVar "y") 0)); Bin Oeq (Read (LFld (LVar "x") 1)) (Read (LFld (LVar
    "y") 1))>>)).
(** src/common.cpp 772-775 *)
Definition c_equal_vec3_vec3 : fundef fn := Fun ["x"; "y"] [Tcls Cvec3; Tcls Cvec3] (RVal (Tcls Cbvec3)) [] (
  Return (Call bvec3__bool_bool_bool <<Bin Oeq (Read (LFld (LVar "x") 0)) (Read (LFld (LVar "y") 0)); Bin Oeq (Read (LFld (LVar "x") 1)) (Read (LFld
    (LVar "y") 1)); Bin Oeq (Read (LFld (LVar "x") 2)) (Read (LFld (LVar "y") 2))>>)).
(** src/common.cpp 777-780 *)
Definition c_equal_vec4_vec4 : fundef fn := Fun ["x"; "y"] [Tcls Cvec4; Tcls Cvec4] (RVal (Tcls Cbvec4)) [] (
  Return (Call bvec4__bool_bool_bool_bool <<Bin Oeq (Read (LFld (LVar "x") 0)) (Read (LFld (LVar "y") 0)); Bin Oeq (Read (LFld (LVar "x") 1)) (Read
    (LFld (LVar "y") 1)); Bin Oeq (Read (LFld (LVar "x") 2)) (Read (LFld (LVar "y") 2)); Bin Oeq (Read (LFld (LVar "x") 3)) (Read (LFld (LVar "y")
    3))>>)).
(** src/common.cpp 782-785 *)
Definition c_equal_quat_quat : fundef fn := Fun ["x"; "y"] [Tcls Cquat; Tcls Cquat] (RVal (Tcls Cbvec4)) [] (
  Return (Call bvec4__bool_bool_bool_bool <<Bin Oeq (Read (LFld (LVar "x") 0)) (Read (LFld (LVar "y") 0)); Bin Oeq (Read (LFld (LVar "x") 1)) (Read
    (LFld (LVar "y") 1)); Bin Oeq (Read (LFld (LVar "x") 2)) (Read (LFld (LVar "y") 2)); Bin Oeq (Read (LFld (LVar "x") 3)) (Read (LFld (LVar "y")
    3))>>)).
(** src/common.cpp 791-794 *)
Definition c_equal_bvec2_bvec2 : fundef fn := Fun ["x"; "y"] [Tcls Cbvec2; Tcls Cbvec2] (RVal (Tcls Cbvec2)) [] (
  Return (Call bvec2__bool_bool <<Bin Oeq (Conv Tint (Read (LFld (LVar "x") 0))) (Conv Tint (Read (LFld (LVar "y") 0))); Bin Oeq (Conv Tint (Read (LFld
    (LVar "x") 1))) (Conv Tint (Read (LFld (LVar "y") 1)))>>)).
(** src/common.cpp 796-799 *)
Definition c_equal_bvec3_bvec3 : fundef fn := Fun ["x"; "y"] [Tcls Cbvec3; Tcls Cbvec3] (RVal (Tcls Cbvec3)) [] (
  Return (Call bvec3__bool_bool_bool <<Bin Oeq (Conv Tint (Read (LFld (LVar "x") 0))) (Conv Tint (Read (LFld (LVar "y") 0))); Bin Oeq (Conv Tint (Read
    (LFld (LVar "x") 1))) (Conv Tint (Read (LFld (LVar "y") 1))); Bin Oeq (Conv Tint (Read (LFld (LVar "x") 2))) (Conv Tint (Read (LFld (LVar "y")
    2)))>>)).
(** src/common.cpp 801-804 *)
Definition c_equal_bvec4_bvec4 : fundef fn := Fun ["x"; "y"] [Tcls Cbvec4; Tcls Cbvec4] (RVal (Tcls Cbvec4)) [] (
  Return (Call bvec4__bool_bool_bool_bool <<Bin Oeq (Conv Tint (Read (LFld (LVar "x") 0))) (Conv Tint (Read (LFld (LVar "y") 0))); Bin Oeq (Conv Tint
    (Read (LFld (LVar "x") 1))) (Conv Tint (Read (LFld (LVar "y") 1))); Bin Oeq (Conv Tint (Read (LFld (LVar "x") 2))) (Conv Tint (Read (LFld (LVar
    "y") 2))); Bin Oeq (Conv Tint (Read (LFld (LVar "x") 3))) (Conv Tint (Read (LFld (LVar "y") 3)))>>)).
(** src/common.cpp 810-813 *)
Definition c_notEqual_vec2_vec2 : fundef fn := Fun ["x"; "y"] [Tcls Cvec2; Tcls Cvec2] (RVal (Tcls Cbvec2)) [] (
  Return (Call bvec2__bool_bool <<Bin One (Read (LFld (LVar "x") 0)) (Read (LFld (LVar "y") 0)); Bin One (Read (LFld (LVar "x") 1)) (Read (LFld (LVar
    "y") 1))>>)).
(** src/common.cpp 815-818 *)
Definition c_notEqual_vec3_vec3 : fundef fn := Fun ["x"; "y"] [Tcls Cvec3; Tcls Cvec3] (RVal (Tcls Cbvec3)) [] (
  Return (Call bvec3__bool_bool_bool <<Bin One (Read (LFld (LVar "x") 0)) (Read (LFld (LVar "y") 0)); Bin One (Read (LFld (LVar "x") 1)) (Read (LFld
    (LVar "y") 1)); Bin One (Read (LFld (LVar "x") 2)) (Read (LFld (LVar "y") 2))>>)).
(** src/common.cpp 820-823 *)
Definition c_notEqual_vec4_vec4 : fundef fn := Fun ["x"; "y"] [Tcls Cvec4; Tcls Cvec4] (RVal (Tcls Cbvec4)) [] (
  Return (Call bvec4__bool_bool_bool_bool <<Bin One (Read (LFld (LVar "x") 0)) (Read (LFld (LVar "y") 0)); Bin One (Read (LFld (LVar "x") 1)) (Read
    (LFld (LVar "y") 1)); Bin One (Read (LFld (LVar "x") 2)) (Read (LFld (LVar "y") 2)); Bin One (Read (LFld (LVar "x") 3)) (Read (LFld (LVar "y")
    3))>>)).
(** src/common.cpp 825-828 *)
Definition c_notEqual_quat_quat : fundef fn := Fun ["x"; "y"] [Tcls Cquat; Tcls Cquat] (RVal (Tcls Cbvec4)) [] (
  Return (Call bvec4__bool_bool_bool_bool <<Bin One (Read (LFld (LVar "x") 0)) (Read (LFld (LVar "y") 0)); Bin One (Read (LFld (LVar "x") 1)) (Read
    (LFld (LVar "y") 1)); Bin One (Read (LFld (LVar "x") 2)) (Read (LFld (LVar "y") 2)); Bin One (Read (LFld (LVar "x") 3)) (Read (LFld (LVar "y")
    3))>>)).
(** src/common.cpp 834-837 *)
Definition c_notEqual_bvec2_bvec2 : fundef fn := Fun ["x"; "y"] [Tcls Cbvec2; Tcls Cbvec2] (RVal (Tcls Cbvec2)) [] (
  Return (Call bvec2__bool_bool <<Bin One (Conv Tint (Read (LFld (LVar "x") 0))) (Conv Tint (Read (LFld (LVar "y") 0))); Bin One (Conv Tint (Read (LFld
    (LVar "x") 1))) (Conv Tint (Read (LFld (LVar "y") 1)))>>)).
(** src/common.cpp 839-842 *)
Definition c_notEqual_bvec3_bvec3 : fundef fn := Fun ["x"; "y"] [Tcls Cbvec3; Tcls Cbvec3] (RVal (Tcls Cbvec3)) [] (
  Return (Call bvec3__bool_bool_bool <<Bin One (Conv Tint (Read (LFld (LVar "x") 0))) (Conv Tint (Read (LFld (LVar "y") 0))); Bin One (Conv Tint (Read
    (LFld (LVar "x") 1))) (Conv Tint (Read (LFld (LVar "y") 1))); Bin One (Conv Tint (Read (LFld (LVar "x") 2))) (Conv Tint (Read (LFld (LVar "y")
    2)))>>)).
(** src/common.cpp 844-847 *)
Definition c_notEqual_bvec4_bvec4 : fundef fn := Fun ["x"; "y"] [Tcls Cbvec4; Tcls Cbvec4] (RVal (Tcls Cbvec4)) [] (
  Return (Call bvec4__bool_bool_bool_bool <<Bin One (Conv Tint (Read (LFld (LVar "x") 0))) (Conv Tint (Read (LFld (LVar "y") 0))); Bin One (Conv Tint
    (Read (LFld (LVar "x") 1))) (Conv Tint (Read (LFld (LVar "y") 1))); Bin One (Conv Tint (Read (LFld (LVar "x") 2))) (Conv Tint (Read (LFld (LVar
    "y") 2))); Bin One (Conv Tint (Read (LFld (LVar "x") 3))) (Conv Tint (Read (LFld (LVar "y") 3)))>>)).
(** src/common.cpp 852-855 *)
Definition c_all_bvec2 : fundef fn := Fun ["x"] [Tcls Cbvec2] (RVal Tbool) [] (
  Return (And (Read (LFld (LVar "x") 0)) (Read (LFld (LVar "x") 1)))).
(** src/common.cpp 857-860 *)
Definition c_all_bvec3 : fundef fn := Fun ["x"] [Tcls Cbvec3] (RVal Tbool) [] (
  Return (And (And (Read (LFld (LVar "x") 0)) (Read (LFld (LVar "x") 1))) (Read (LFld (LVar "x") 2)))).
(** src/common.cpp 862-865 *)
Definition c_all_bvec4 : fundef fn := Fun ["x"] [Tcls Cbvec4] (RVal Tbool) [] (
  Return (And (And (And (Read (LFld (LVar "x") 0)) (Read (LFld (LVar "x") 1))) (Read (LFld (LVar "x") 2))) (Read (LFld (LVar "x") 3)))).
(** src/common.cpp 871-874 *)
Definition c_any_bvec2 : fundef fn := Fun ["x"] [Tcls Cbvec2] (RVal Tbool) [] (
  Return (Or (Read (LFld (LVar "x") 0)) (Read (LFld (LVar "x") 1)))).
(** src/common.cpp 876-879 *)
Definition c_any_bvec3 : fundef fn := Fun ["x"] [Tcls Cbvec3] (RVal Tbool) [] (
  Return (Or (Or (Read (LFld (LVar "x") 0)) (Read (LFld (LVar "x") 1))) (Read (LFld (LVar "x") 2)))).
(** src/common.cpp 881-884 *)
Definition c_any_bvec4 : fundef fn := Fun ["x"] [Tcls Cbvec4] (RVal Tbool) [] (
  Return (Or (Or (Or (Read (LFld (LVar "x") 0)) (Read (LFld (LVar "x") 1))) (Read (LFld (LVar "x") 2))) (Read (LFld (LVar "x") 3)))).

(** ** src/geometric.cpp *)
(** src/geometric.cpp 11-14 *)
Definition c_dot_float_float : fundef fn := Fun ["first"; "second"] [Tfloat; Tfloat] (RVal Tfloat) [] (
  Return (Bin Omul (Var "first") (Var "second"))).
(** src/geometric.cpp 16-19 *)
Definition c_dot_vec2_vec2 : fundef fn := Fun ["first"; "second"] [Tcls Cvec2; Tcls Cvec2] (RVal Tfloat) [] (
  Return (Bin Oadd (Bin Omul (Read (LFld (LVar "first") 0)) (Read (LFld (LVar "second") 0))) (Bin Omul (Read (LFld (LVar "first") 1)) (Read (LFld (LVar
    "second") 1))))).
(** src/geometric.cpp 21-24 *)
Definition c_dot_vec3_vec3 : fundef fn := Fun ["first"; "second"] [Tcls Cvec3; Tcls Cvec3] (RVal Tfloat) [] (
  Return (Bin Oadd (Bin Oadd (Bin Omul (Read (LFld (LVar "first") 0)) (Read (LFld (LVar "second") 0))) (Bin Omul (Read (LFld (LVar "first") 1)) (Read
    (LFld (LVar "second") 1)))) (Bin Omul (Read (LFld (LVar "first") 2)) (Read (LFld (LVar "second") 2))))).
(** src/geometric.cpp 26-29 *)
Definition c_dot_vec4_vec4 : fundef fn := Fun ["first"; "second"] [Tcls Cvec4; Tcls Cvec4] (RVal Tfloat) [] (
  Return (Bin Oadd (Bin Oadd (Bin Oadd (Bin Omul (Read (LFld (LVar "first") 0)) (Read (LFld (LVar "second") 0))) (Bin Omul (Read (LFld (LVar "first")
    1)) (Read (LFld (LVar "second") 1)))) (Bin Omul (Read (LFld (LVar "first") 2)) (Read (LFld (LVar "second") 2)))) (Bin Omul (Read (LFld (LVar
    "first") 3)) (Read (LFld (LVar "second") 3))))).
(** src/geometric.cpp 31-34 *)
Definition c_dot_quat_quat : fundef fn := Fun ["first"; "second"] [Tcls Cquat; Tcls Cquat] (RVal Tfloat) [] (
  Return (Bin Oadd (Bin Oadd (Bin Oadd (Bin Omul (Read (LFld (LVar "first") 0)) (Read (LFld (LVar "second") 0))) (Bin Omul (Read (LFld (LVar "first")
    1)) (Read (LFld (LVar "second") 1)))) (Bin Omul (Read (LFld (LVar "first") 2)) (Read (LFld (LVar "second") 2)))) (Bin Omul (Read (LFld (LVar
    "first") 3)) (Read (LFld (LVar "second") 3))))).
(** src/geometric.cpp 40-45 *)
Definition c_cross_vec3_vec3 : fundef fn := Fun ["first"; "second"] [Tcls Cvec3; Tcls Cvec3] (RVal (Tcls Cvec3)) [] (
  Return (Call vec3__float_float_float <<Bin Osub (Bin Omul (Read (LFld (LVar "first") 1)) (Read (LFld (LVar "second") 2))) (Bin Omul (Read (LFld (LVar
    "first") 2)) (Read (LFld (LVar "second") 1))); Bin Osub (Bin Omul (Read (LFld (LVar "first") 2)) (Read (LFld (LVar "second") 0))) (Bin Omul (Read
    (LFld (LVar "first") 0)) (Read (LFld (LVar "second") 2))); Bin Osub (Bin Omul (Read (LFld (LVar "first") 0)) (Read (LFld (LVar "second") 1))) (Bin
    Omul (Read (LFld (LVar "first") 1)) (Read (LFld (LVar "second") 0)))>>)).
(** src/geometric.cpp 50-53 *)
Definition c_normalize_vec2 : fundef fn := Fun ["vec"] [Tcls Cvec2] (RVal (Tcls Cvec2)) [] (
  Return (Call op_mul_vec2_float <<Var "vec"; Call inversesqrt_float <<Call dot_vec2_vec2 <<Var "vec"; Var "vec">>>>>>)).
(** src/geometric.cpp 55-58 *)
Definition c_normalize_vec3 : fundef fn := Fun ["vec"] [Tcls Cvec3] (RVal (Tcls Cvec3)) [] (
  Return (Call op_mul_vec3_float <<Var "vec"; Call inversesqrt_float <<Call dot_vec3_vec3 <<Var "vec"; Var "vec">>>>>>)).
(** src/geometric.cpp 60-63 *)
Definition c_normalize_vec4 : fundef fn := Fun ["vec"] [Tcls Cvec4] (RVal (Tcls Cvec4)) [] (
  Return (Call op_mul_vec4_float <<Var "vec"; Call inversesqrt_float <<Call dot_vec4_vec4 <<Var "vec"; Var "vec">>>>>>)).
(** src/geometric.cpp 65-68 *)
Definition c_normalize_quat : fundef fn := Fun ["q"] [Tcls Cquat] (RVal (Tcls Cquat)) [] (
  Return (Call op_div_quat_float <<Var "q"; Call length_quat <<Var "q">>>>)).
(** src/geometric.cpp 74-77 *)
Definition c_distance_float_float : fundef fn := Fun ["first"; "second"] [Tfloat; Tfloat] (RVal Tfloat) [] (
  Return (Call abs_float <<Bin Osub (Var "first") (Var "second")>>)).
(** src/geometric.cpp 79-82 *)
Definition c_distance_vec2_vec2 : fundef fn := Fun ["first"; "second"] [Tcls Cvec2; Tcls Cvec2] (RVal Tfloat) [] (
  Return (Call length_vec2 <<Call op_sub_vec2_vec2 <<Var "first"; Var "second">>>>)).
(** src/geometric.cpp 84-87 *)
Definition c_distance_vec3_vec3 : fundef fn := Fun ["first"; "second"] [Tcls Cvec3; Tcls Cvec3] (RVal Tfloat) [] (
  Return (Call length_vec3 <<Call op_sub_vec3_vec3 <<Var "first"; Var "second">>>>)).
(** src/geometric.cpp 89-92 *)
Definition c_distance_vec4_vec4 : fundef fn := Fun ["first"; "second"] [Tcls Cvec4; Tcls Cvec4] (RVal Tfloat) [] (
  Return (Call length_vec4 <<Call op_sub_vec4_vec4 <<Var "first"; Var "second">>>>)).
(** src/geometric.cpp 98-106 *)
Definition c_faceforward_float_float_float : fundef fn := Fun ["N"; "I"; "Nref"] [Tfloat; Tfloat; Tfloat] (RVal Tfloat) [] (
  If (Bin Olt (Call dot_float_float <<Var "Nref"; Var "I">>) (Lit 0 0)) (Return (Var "N")) (Return (Un Oneg (Var "N")))).
(** src/geometric.cpp 108-116 *)
Definition c_faceforward_vec2_vec2_vec2 : fundef fn := Fun ["N"; "I"; "Nref"] [Tcls Cvec2; Tcls Cvec2; Tcls Cvec2] (RVal (Tcls Cvec2)) [] (
  If (Bin Olt (Call dot_vec2_vec2 <<Var "Nref"; Var "I">>) (Lit 0 0)) (Return (Var "N")) (Return (Call op_sub_vec2 <<Var "N">>))).
(** src/geometric.cpp 118-126 *)
Definition c_faceforward_vec3_vec3_vec3 : fundef fn := Fun ["N"; "I"; "Nref"] [Tcls Cvec3; Tcls Cvec3; Tcls Cvec3] (RVal (Tcls Cvec3)) [] (
  If (Bin Olt (Call dot_vec3_vec3 <<Var "Nref"; Var "I">>) (Lit 0 0)) (Return (Var "N")) (Return (Call op_sub_vec3 <<Var "N">>))).
(** src/geometric.cpp 128-136 *)
Definition c_faceforward_vec4_vec4_vec4 : fundef fn := Fun ["N"; "I"; "Nref"] [Tcls Cvec4; Tcls Cvec4; Tcls Cvec4] (RVal (Tcls Cvec4)) [] (
  If (Bin Olt (Call dot_vec4_vec4 <<Var "Nref"; Var "I">>) (Lit 0 0)) (Return (Var "N")) (Return (Call op_sub_vec4 <<Var "N">>))).
(** src/geometric.cpp 142-145 *)
Definition c_reflect_float_float : fundef fn := Fun ["I"; "N"] [Tfloat; Tfloat] (RVal Tfloat) [] (
  Return (Bin Osub (Var "I") (Bin Omul (Bin Omul (Lit 2 0) (Call dot_float_float <<Var "N"; Var "I">>)) (Var "N")))).
(** src/geometric.cpp 147-150 *)
Definition c_reflect_vec2_vec2 : fundef fn := Fun ["I"; "N"] [Tcls Cvec2; Tcls Cvec2] (RVal (Tcls Cvec2)) [] (
  Return (Call op_sub_vec2_vec2 <<Var "I"; Call op_mul_float_vec2 <<Bin Omul (Lit 2 0) (Call dot_vec2_vec2 <<Var "N"; Var "I">>); Var "N">>>>)).
(** src/geometric.cpp 152-155 *)
Definition c_reflect_vec3_vec3 : fundef fn := Fun ["I"; "N"] [Tcls Cvec3; Tcls Cvec3] (RVal (Tcls Cvec3)) [] (
  Return (Call op_sub_vec3_vec3 <<Var "I"; Call op_mul_float_vec3 <<Bin Omul (Lit 2 0) (Call dot_vec3_vec3 <<Var "N"; Var "I">>); Var "N">>>>)).
(** src/geometric.cpp 157-160 *)
Definition c_reflect_vec4_vec4 : fundef fn := Fun ["I"; "N"] [Tcls Cvec4; Tcls Cvec4] (RVal (Tcls Cvec4)) [] (
  Return (Call op_sub_vec4_vec4 <<Var "I"; Call op_mul_float_vec4 <<Bin Omul (Lit 2 0) (Call dot_vec4_vec4 <<Var "N"; Var "I">>); Var "N">>>>)).
(** src/geometric.cpp 166-175 *)
Definition c_refract_float_float_float : fundef fn := Fun ["I"; "N"; "eta"] [Tfloat; Tfloat; Tfloat] (RVal Tfloat) [] (
  Decl "k" (Some (Bin Osub (Lit 1 0) (Bin Omul (Bin Omul (Var "eta") (Var "eta")) (Bin Osub (Lit 1 0) (Bin Omul (Call dot_float_float <<Var "N"; Var
    "I">>) (Call dot_float_float <<Var "N"; Var "I">>))))));;
  If (Bin Olt (Var "k") (Lit 0 0)) (Return (Lit 0 0)) (Return (Bin Osub (Bin Omul (Var "eta") (Var "I")) (Bin Omul (Bin Oadd (Bin Omul (Var "eta") (Call
    dot_float_float <<Var "N"; Var "I">>)) (Call sqrt_float <<Var "k">>)) (Var "N"))))).
(** src/geometric.cpp 177-186 *)
Definition c_refract_vec2_vec2_float : fundef fn := Fun ["I"; "N"; "eta"] [Tcls Cvec2; Tcls Cvec2; Tfloat] (RVal (Tcls Cvec2)) [] (
  Decl "k" (Some (Bin Osub (Lit 1 0) (Bin Omul (Bin Omul (Var "eta") (Var "eta")) (Bin Osub (Lit 1 0) (Bin Omul (Call dot_vec2_vec2 <<Var "N"; Var
    "I">>) (Call dot_vec2_vec2 <<Var "N"; Var "I">>))))));;
  If (Bin Olt (Var "k") (Lit 0 0)) (Return (Call vec2__float <<Lit 0 0>>)) (Return (Call op_sub_vec2_vec2 <<Call op_mul_float_vec2 <<Var "eta"; Var
    "I">>; Call op_mul_float_vec2 <<Bin Oadd (Bin Omul (Var "eta") (Call dot_vec2_vec2 <<Var "N"; Var "I">>)) (Call sqrt_float <<Var "k">>); Var
    "N">>>>))).
(** src/geometric.cpp 188-197 *)
Definition c_refract_vec3_vec3_float : fundef fn := Fun ["I"; "N"; "eta"] [Tcls Cvec3; Tcls Cvec3; Tfloat] (RVal (Tcls Cvec3)) [] (
  Decl "k" (Some (Bin Osub (Lit 1 0) (Bin Omul (Bin Omul (Var "eta") (Var "eta")) (Bin Osub (Lit 1 0) (Bin Omul (Call dot_vec3_vec3 <<Var "N"; Var
    "I">>) (Call dot_vec3_vec3 <<Var "N"; Var "I">>))))));;
  If (Bin Olt (Var "k") (Lit 0 0)) (Return (Call vec3__float <<Lit 0 0>>)) (Return (Call op_sub_vec3_vec3 <<Call op_mul_float_vec3 <<Var "eta"; Var
    "I">>; Call op_mul_float_vec3 <<Bin Oadd (Bin Omul (Var "eta") (Call dot_vec3_vec3 <<Var "N"; Var "I">>)) (Call sqrt_float <<Var "k">>); Var
    "N">>>>))).
(** src/geometric.cpp 199-208 *)
Definition c_refract_vec4_vec4_float : fundef fn := Fun ["I"; "N"; "eta"] [Tcls Cvec4; Tcls Cvec4; Tfloat] (RVal (Tcls Cvec4)) [] (
  Decl "k" (Some (Bin Osub (Lit 1 0) (Bin Omul (Bin Omul (Var "eta") (Var "eta")) (Bin Osub (Lit 1 0) (Bin Omul (Call dot_vec4_vec4 <<Var "N"; Var
    "I">>) (Call dot_vec4_vec4 <<Var "N"; Var "I">>))))));;
  If (Bin Olt (Var "k") (Lit 0 0)) (Return (Call vec4__float <<Lit 0 0>>)) (Return (Call op_sub_vec4_vec4 <<Call op_mul_float_vec4 <<Var "eta"; Var
    "I">>; Call op_mul_float_vec4 <<Bin Oadd (Bin Omul (Var "eta") (Call dot_vec4_vec4 <<Var "N"; Var "I">>)) (Call sqrt_float <<Var "k">>); Var
    "N">>>>))).
(** src/geometric.cpp 214-217 *)
Definition c_length_float : fundef fn := Fun ["first"] [Tfloat] (RVal Tfloat) [] (
  Return (Var "first")).
(** src/geometric.cpp 219-222 *)
Definition c_length_vec2 : fundef fn := Fun ["first"] [Tcls Cvec2] (RVal Tfloat) [] (
  Return (Call sqrt_float <<Bin Oadd (Bin Omul (Read (LFld (LVar "first") 0)) (Read (LFld (LVar "first") 0))) (Bin Omul (Read (LFld (LVar "first") 1))
    (Read (LFld (LVar "first") 1)))>>)).
(** src/geometric.cpp 225-228 *)
Definition c_length_vec3 : fundef fn := Fun ["first"] [Tcls Cvec3] (RVal Tfloat) [] (
  Return (Call sqrt_float <<Bin Oadd (Bin Oadd (Bin Omul (Read (LFld (LVar "first") 0)) (Read (LFld (LVar "first") 0))) (Bin Omul (Read (LFld (LVar
    "first") 1)) (Read (LFld (LVar "first") 1)))) (Bin Omul (Read (LFld (LVar "first") 2)) (Read (LFld (LVar "first") 2)))>>)).
(** src/geometric.cpp 231-234 *)
Definition c_length_vec4 : fundef fn := Fun ["first"] [Tcls Cvec4] (RVal Tfloat) [] (
  Return (Call sqrt_float <<Bin Oadd (Bin Oadd (Bin Oadd (Bin Omul (Read (LFld (LVar "first") 0)) (Read (LFld (LVar "first") 0))) (Bin Omul (Read (LFld
    (LVar "first") 1)) (Read (LFld (LVar "first") 1)))) (Bin Omul (Read (LFld (LVar "first") 2)) (Read (LFld (LVar "first") 2)))) (Bin Omul (Read
    (LFld (LVar "first") 3)) (Read (LFld (LVar "first") 3)))>>)).
(** src/geometric.cpp 236-239 *)
Definition c_length_quat : fundef fn := Fun ["first"] [Tcls Cquat] (RVal Tfloat) [] (
  Return (Call sqrt_float <<Bin Oadd (Bin Oadd (Bin Oadd (Bin Omul (Read (LFld (LVar "first") 0)) (Read (LFld (LVar "first") 0))) (Bin Omul (Read (LFld
    (LVar "first") 1)) (Read (LFld (LVar "first") 1)))) (Bin Omul (Read (LFld (LVar "first") 2)) (Read (LFld (LVar "first") 2)))) (Bin Omul (Read
    (LFld (LVar "first") 3)) (Read (LFld (LVar "first") 3)))>>)).
(** src/geometric.cpp 245-248 *)
Definition c_length2_float : fundef fn := Fun ["first"] [Tfloat] (RVal Tfloat) [] (
  Return (Call dot_float_float <<Var "first"; Var "first">>)).
(** src/geometric.cpp 250-253 *)
Definition c_length2_vec2 : fundef fn := Fun ["first"] [Tcls Cvec2] (RVal Tfloat) [] (
  Return (Call dot_vec2_vec2 <<Var "first"; Var "first">>)).
(** src/geometric.cpp 255-258 *)
Definition c_length2_vec3 : fundef fn := Fun ["first"] [Tcls Cvec3] (RVal Tfloat) [] (
  Return (Call dot_vec3_vec3 <<Var "first"; Var "first">>)).
(** src/geometric.cpp 260-263 *)
Definition c_length2_vec4 : fundef fn := Fun ["first"] [Tcls Cvec4] (RVal Tfloat) [] (
  Return (Call dot_vec4_vec4 <<Var "first"; Var "first">>)).
(** src/geometric.cpp 265-268 *)
Definition c_length2_quat : fundef fn := Fun ["first"] [Tcls Cquat] (RVal Tfloat) [] (
  Return (Call dot_quat_quat <<Var "first"; Var "first">>)).
(** src/geometric.cpp 274-277 *)
Definition c_distance2_float_float : fundef fn := Fun ["first"; "second"] [Tfloat; Tfloat] (RVal Tfloat) [] (
  Return (Call length2_float <<Bin Osub (Var "first") (Var "second")>>)).
(** src/geometric.cpp 279-282 *)
Definition c_distance2_vec2_vec2 : fundef fn := Fun ["first"; "second"] [Tcls Cvec2; Tcls Cvec2] (RVal Tfloat) [] (
  Return (Call length2_vec2 <<Call op_sub_vec2_vec2 <<Var "first"; Var "second">>>>)).
(** src/geometric.cpp 284-287 *)
Definition c_distance2_vec3_vec3 : fundef fn := Fun ["first"; "second"] [Tcls Cvec3; Tcls Cvec3] (RVal Tfloat) [] (
  Return (Call length_vec3 <<Call op_sub_vec3_vec3 <<Var "first"; Var "second">>>>)).
(** src/geometric.cpp 289-292 *)
Definition c_distance2_vec4_vec4 : fundef fn := Fun ["first"; "second"] [Tcls Cvec4; Tcls Cvec4] (RVal Tfloat) [] (
  Return (Call length_vec4 <<Call op_sub_vec4_vec4 <<Var "first"; Var "second">>>>)).
(** src/geometric.cpp 298-303 *)
Definition c_orthogonal_vec3 : fundef fn := Fun ["v"] [Tcls Cvec3] (RVal (Tcls Cvec3)) [] (
  Return (Cond (Bin Ogt (Call abs_float <<Read (LFld (LVar "v") 0)>>) (Call abs_float <<Read (LFld (LVar "v") 2)>>)) (Call vec3__float_float_float <<Un
    Oneg (Read (LFld (LVar "v") 1)); Read (LFld (LVar "v") 0); Lit 0 0>>) (Call vec3__float_float_float <<Lit 0 0; Un Oneg (Read (LFld (LVar "v") 2));
    Read (LFld (LVar "v") 1)>>))).
(** src/geometric.cpp 305-309 *)
Definition c_orthogonal_branchless_vec3 : fundef fn := Fun ["v"] [Tcls Cvec3] (RVal (Tcls Cvec3)) [] (
  Decl "k" (Some (Call fract_float <<Bin Oadd (Call abs_float <<Read (LFld (LVar "v") 0)>>) (Lit 5 (-1))>>));;
  Return (Call vec3__float_float_float <<Un Oneg (Read (LFld (LVar "v") 1)); Bin Osub (Read (LFld (LVar "v") 0)) (Bin Omul (Var "k") (Read (LFld (LVar
    "v") 2))); Bin Omul (Var "k") (Read (LFld (LVar "v") 1))>>)).
(** src/geometric.cpp 312-324 *)
Definition c_encode_octahedral_vec3 : fundef fn := Fun ["v"] [Tcls Cvec3] (RVal (Tcls Cvec2)) [] (
  Decl "p" (Some (Call op_mul_vec2_float <<Call vec2__float_float <<Read (LFld (LVar "v") 0); Read (LFld (LVar "v") 1)>>; Bin Odiv (Lit 1 0) (Bin Oadd
    (Bin Oadd (Call abs_float <<Read (LFld (LVar "v") 0)>>) (Call abs_float <<Read (LFld (LVar "v") 1)>>)) (Call abs_float <<Read (LFld (LVar "v")
    2)>>))>>));;
  Return (Cond (Bin Ole (Read (LFld (LVar "v") 2)) (Lit 0 0)) (Call op_mul_vec2_vec2 <<Call op_sub_float_vec2 <<Lit 1 0; Call abs_vec2 <<Call
    vec2__float_float <<Read (LFld (LVar "p") 1); Read (LFld (LVar "p") 0)>>>>>>; Call signNotZero_vec2 <<Var "p">>>>) (Var "p"))).
(** src/geometric.cpp 326-334 *)
Definition c_decode_octahedral_vec2 : fundef fn := Fun ["e"] [Tcls Cvec2] (RVal (Tcls Cvec3)) [] (
  Decl "v" (Some (Call vec3__float_float_float <<Read (LFld (LVar "e") 0); Read (LFld (LVar "e") 1); Bin Osub (Bin Osub (Lit 1 0) (Call abs_float <<Read
    (LFld (LVar "e") 0)>>)) (Call abs_float <<Read (LFld (LVar "e") 1)>>)>>));;
  If (Bin Olt (Read (LFld (LVar "v") 2)) (Lit 0 0)) (Assign (LFld (LVar "v") 0) (Bin Osub (Lit 1 0) (Bin Omul (Call abs_float <<Read (LFld (LVar "v")
    1)>>) (Call signNotZero_float <<Read (LFld (LVar "v") 0)>>)));; Assign (LFld (LVar "v") 1) (Bin Osub (Lit 1 0) (Bin Omul (Call abs_float <<Read
    (LFld (LVar "v") 0)>>) (Call signNotZero_float <<Read (LFld (LVar "v") 1)>>)))) Skip;;
  Return (Call normalize_vec3 <<Var "v">>)).

(** ** src/exponential.cpp *)
(** src/exponential.cpp 9-12 *)
Definition c_sqrt_float : fundef fn := Fun ["x"] [Tfloat] (RVal Tfloat) [] (
  Return (Prim Psqrtf <<Var "x">>)).
(** src/exponential.cpp 14-17 *)
Definition c_sqrt_vec2 : fundef fn := Fun ["x"] [Tcls Cvec2] (RVal (Tcls Cvec2)) [] (
  Return (Call vec2__float_float <<Call sqrt_float <<Read (LFld (LVar "x") 0)>>; Call sqrt_float <<Read (LFld (LVar "x") 1)>>>>)).
(** src/exponential.cpp 19-22 *)
Definition c_sqrt_vec3 : fundef fn := Fun ["x"] [Tcls Cvec3] (RVal (Tcls Cvec3)) [] (
  Return (Call vec3__float_float_float <<Call sqrt_float <<Read (LFld (LVar "x") 0)>>; Call sqrt_float <<Read (LFld (LVar "x") 1)>>; Call sqrt_float
    <<Read (LFld (LVar "x") 2)>>>>)).
(** src/exponential.cpp 24-27 *)
Definition c_sqrt_vec4 : fundef fn := Fun ["x"] [Tcls Cvec4] (RVal (Tcls Cvec4)) [] (
  Return (Call vec4__float_float_float_float <<Call sqrt_float <<Read (LFld (LVar "x") 0)>>; Call sqrt_float <<Read (LFld (LVar "x") 1)>>; Call
    sqrt_float <<Read (LFld (LVar "x") 2)>>; Call sqrt_float <<Read (LFld (LVar "x") 3)>>>>)).
(** src/exponential.cpp 29-32 *)
Definition c_sqrt_quat : fundef fn := Fun ["x"] [Tcls Cquat] (RVal (Tcls Cquat)) [] (
  Return (Call quat__float_float_float_float <<Call sqrt_float <<Read (LFld (LVar "x") 3)>>; Call sqrt_float <<Read (LFld (LVar "x") 0)>>; Call
    sqrt_float <<Read (LFld (LVar "x") 1)>>; Call sqrt_float <<Read (LFld (LVar "x") 2)>>>>)).
(** src/exponential.cpp 38-41 *)
Definition c_pow_float_float : fundef fn := Fun ["x"; "y"] [Tfloat; Tfloat] (RVal Tfloat) [] (
  Return (Prim Ppowf <<Var "x"; Var "y">>)).
(** src/exponential.cpp 43-46 *)
Definition c_pow_vec2_vec2 : fundef fn := Fun ["x"; "y"] [Tcls Cvec2; Tcls Cvec2] (RVal (Tcls Cvec2)) [] (
  Return (Call vec2__float_float <<Call pow_float_float <<Read (LFld (LVar "x") 0); Read (LFld (LVar "y") 0)>>; Call pow_float_float <<Read (LFld (LVar
    "x") 1); Read (LFld (LVar "y") 1)>>>>)).
(** src/exponential.cpp 48-51 *)
Definition c_pow_vec3_vec3 : fundef fn := Fun ["x"; "y"] [Tcls Cvec3; Tcls Cvec3] (RVal (Tcls Cvec3)) [] (
  Return (Call vec3__float_float_float <<Call pow_float_float <<Read (LFld (LVar "x") 0); Read (LFld (LVar "y") 0)>>; Call pow_float_float <<Read (LFld
    (LVar "x") 1); Read (LFld (LVar "y") 1)>>; Call pow_float_float <<Read (LFld (LVar "x") 2); Read (LFld (LVar "y") 2)>>>>)).
(** src/exponential.cpp 53-56 *)
Definition c_pow_vec4_vec4 : fundef fn := Fun ["x"; "y"] [Tcls Cvec4; Tcls Cvec4] (RVal (Tcls Cvec4)) [] (
  Return (Call vec4__float_float_float_float <<Call pow_float_float <<Read (LFld (LVar "x") 0); Read (LFld (LVar "y") 0)>>; Call pow_float_float <<Read
    (LFld (LVar "x") 1); Read (LFld (LVar "y") 1)>>; Call pow_float_float <<Read (LFld (LVar "x") 2); Read (LFld (LVar "y") 2)>>; Call pow_float_float
    <<Read (LFld (LVar "x") 3); Read (LFld (LVar "y") 3)>>>>)).
(** src/exponential.cpp 58-61 *)
Definition c_pow_quat_float : fundef fn := Fun ["x"; "y"] [Tcls Cquat; Tfloat] (RVal (Tcls Cquat)) [] (
  Return (Call quat__float_float_float_float <<Call pow_float_float <<Read (LFld (LVar "x") 3); Var "y">>; Call pow_float_float <<Read (LFld (LVar "x")
    0); Var "y">>; Call pow_float_float <<Read (LFld (LVar "x") 1); Var "y">>; Call pow_float_float <<Read (LFld (LVar "x") 2); Var "y">>>>)).
(** src/exponential.cpp 67-70 *)
Definition c_log_float : fundef fn := Fun ["x"] [Tfloat] (RVal Tfloat) [] (
  Return (Prim Plogf <<Var "x">>)).
(** src/exponential.cpp 72-75 *)
Definition c_log_vec2 : fundef fn := Fun ["x"] [Tcls Cvec2] (RVal (Tcls Cvec2)) [] (
  Return (Call vec2__float_float <<Call log_float <<Read (LFld (LVar "x") 0)>>; Call log_float <<Read (LFld (LVar "x") 1)>>>>)).
(** src/exponential.cpp 77-80 *)
Definition c_log_vec3 : fundef fn := Fun ["x"] [Tcls Cvec3] (RVal (Tcls Cvec3)) [] (
  Return (Call vec3__float_float_float <<Call log_float <<Read (LFld (LVar "x") 0)>>; Call log_float <<Read (LFld (LVar "x") 1)>>; Call log_float <<Read
    (LFld (LVar "x") 2)>>>>)).
(** src/exponential.cpp 82-85 *)
Definition c_log_vec4 : fundef fn := Fun ["x"] [Tcls Cvec4] (RVal (Tcls Cvec4)) [] (
  Return (Call vec4__float_float_float_float <<Call log_float <<Read (LFld (LVar "x") 0)>>; Call log_float <<Read (LFld (LVar "x") 1)>>; Call log_float
    <<Read (LFld (LVar "x") 2)>>; Call log_float <<Read (LFld (LVar "x") 3)>>>>)).
(** src/exponential.cpp 88-91 *)
Definition c_log_quat : fundef fn := Fun ["x"] [Tcls Cquat] (RVal (Tcls Cquat)) [] (
  Return (Call quat__float_float_float_float <<Call log_float <<Read (LFld (LVar "x") 3)>>; Call log_float <<Read (LFld (LVar "x") 0)>>; Call log_float
    <<Read (LFld (LVar "x") 1)>>; Call log_float <<Read (LFld (LVar "x") 2)>>>>)).
(** src/exponential.cpp 97-100 *)
Definition c_log2_float : fundef fn := Fun ["x"] [Tfloat] (RVal Tfloat) [] (
  Return (Prim Plog2f <<Var "x">>)).
(** src/exponential.cpp 102-105 *)
Definition c_log2_vec2 : fundef fn := Fun ["x"] [Tcls Cvec2] (RVal (Tcls Cvec2)) [] (
  Return (Call vec2__float_float <<Call log2_float <<Read (LFld (LVar "x") 0)>>; Call log2_float <<Read (LFld (LVar "x") 1)>>>>)).
(** src/exponential.cpp 107-110 *)
Definition c_log2_vec3 : fundef fn := Fun ["x"] [Tcls Cvec3] (RVal (Tcls Cvec3)) [] (
  Return (Call vec3__float_float_float <<Call log2_float <<Read (LFld (LVar "x") 0)>>; Call log2_float <<Read (LFld (LVar "x") 1)>>; Call log2_float
    <<Read (LFld (LVar "x") 2)>>>>)).
(** src/exponential.cpp 112-115 *)
Definition c_log2_vec4 : fundef fn := Fun ["x"] [Tcls Cvec4] (RVal (Tcls Cvec4)) [] (
  Return (Call vec4__float_float_float_float <<Call log2_float <<Read (LFld (LVar "x") 0)>>; Call log2_float <<Read (LFld (LVar "x") 1)>>; Call
    log2_float <<Read (LFld (LVar "x") 2)>>; Call log2_float <<Read (LFld (LVar "x") 3)>>>>)).
(** src/exponential.cpp 118-121 *)
Definition c_log2_quat : fundef fn := Fun ["x"] [Tcls Cquat] (RVal (Tcls Cquat)) [] (
  Return (Call quat__float_float_float_float <<Call log2_float <<Read (LFld (LVar "x") 3)>>; Call log2_float <<Read (LFld (LVar "x") 0)>>; Call
    log2_float <<Read (LFld (LVar "x") 1)>>; Call log2_float <<Read (LFld (LVar "x") 2)>>>>)).
(** src/exponential.cpp 127-130 *)
Definition c_inversesqrt_float : fundef fn := Fun ["x"] [Tfloat] (RVal Tfloat) [] (
  Return (Bin Odiv (Lit 1 0) (Call sqrt_float <<Var "x">>))).
(** src/exponential.cpp 132-135 *)
Definition c_inversesqrt_vec2 : fundef fn := Fun ["x"] [Tcls Cvec2] (RVal (Tcls Cvec2)) [] (
  Return (Call op_div_float_vec2 <<Lit 1 0; Call sqrt_vec2 <<Var "x">>>>)).
(** src/exponential.cpp 137-140 *)
Definition c_inversesqrt_vec3 : fundef fn := Fun ["x"] [Tcls Cvec3] (RVal (Tcls Cvec3)) [] (
  Return (Call op_div_float_vec3 <<Lit 1 0; Call sqrt_vec3 <<Var "x">>>>)).
(** src/exponential.cpp 142-145 *)
Definition c_inversesqrt_vec4 : fundef fn := Fun ["x"] [Tcls Cvec4] (RVal (Tcls Cvec4)) [] (
  Return (Call op_div_float_vec4 <<Lit 1 0; Call sqrt_vec4 <<Var "x">>>>)).
(** src/exponential.cpp 147-150 *)
Definition c_inversesqrt_quat : fundef fn := Fun ["x"] [Tcls Cquat] (RVal (Tcls Cquat)) [] (
  Return (Call op_div_float_quat <<Lit 1 0; Call sqrt_quat <<Var "x">>>>)).
(** src/exponential.cpp 156-159 *)
Definition c_exp_float : fundef fn := Fun ["x"] [Tfloat] (RVal Tfloat) [] (
  Return (Prim Pexpf <<Var "x">>)).
(** src/exponential.cpp 161-164 *)
Definition c_exp_vec2 : fundef fn := Fun ["x"] [Tcls Cvec2] (RVal (Tcls Cvec2)) [] (
  Return (Call vec2__float_float <<Call exp_float <<Read (LFld (LVar "x") 0)>>; Call exp_float <<Read (LFld (LVar "x") 1)>>>>)).
(** src/exponential.cpp 166-169 *)
Definition c_exp_vec3 : fundef fn := Fun ["x"] [Tcls Cvec3] (RVal (Tcls Cvec3)) [] (
  Return (Call vec3__float_float_float <<Call exp_float <<Read (LFld (LVar "x") 0)>>; Call exp_float <<Read (LFld (LVar "x") 1)>>; Call exp_float <<Read
    (LFld (LVar "x") 2)>>>>)).
(** src/exponential.cpp 171-174 *)
Definition c_exp_vec4 : fundef fn := Fun ["x"] [Tcls Cvec4] (RVal (Tcls Cvec4)) [] (
  Return (Call vec4__float_float_float_float <<Call exp_float <<Read (LFld (LVar "x") 0)>>; Call exp_float <<Read (LFld (LVar "x") 1)>>; Call exp_float
    <<Read (LFld (LVar "x") 2)>>; Call exp_float <<Read (LFld (LVar "x") 3)>>>>)).
(** src/exponential.cpp 176-179 *)
Definition c_exp_quat : fundef fn := Fun ["x"] [Tcls Cquat] (RVal (Tcls Cquat)) [] (
  Return (Call quat__float_float_float_float <<Call exp_float <<Read (LFld (LVar "x") 3)>>; Call exp_float <<Read (LFld (LVar "x") 0)>>; Call exp_float
    <<Read (LFld (LVar "x") 1)>>; Call exp_float <<Read (LFld (LVar "x") 2)>>>>)).
(** src/exponential.cpp 185-188 *)
Definition c_exp2_float : fundef fn := Fun ["x"] [Tfloat] (RVal Tfloat) [] (
  Return (Prim Pexpf <<Var "x">>)).
(** src/exponential.cpp 190-193 *)
Definition c_exp2_vec2 : fundef fn := Fun ["x"] [Tcls Cvec2] (RVal (Tcls Cvec2)) [] (
  Return (Call vec2__float_float <<Call exp2_float <<Read (LFld (LVar "x") 0)>>; Call exp2_float <<Read (LFld (LVar "x") 1)>>>>)).
(** src/exponential.cpp 195-198 *)
Definition c_exp2_vec3 : fundef fn := Fun ["x"] [Tcls Cvec3] (RVal (Tcls Cvec3)) [] (
  Return (Call vec3__float_float_float <<Call exp2_float <<Read (LFld (LVar "x") 0)>>; Call exp2_float <<Read (LFld (LVar "x") 1)>>; Call exp2_float
    <<Read (LFld (LVar "x") 2)>>>>)).
(** src/exponential.cpp 200-203 *)
Definition c_exp2_vec4 : fundef fn := Fun ["x"] [Tcls Cvec4] (RVal (Tcls Cvec4)) [] (
  Return (Call vec4__float_float_float_float <<Call exp2_float <<Read (LFld (LVar "x") 0)>>; Call exp2_float <<Read (LFld (LVar "x") 1)>>; Call
    exp2_float <<Read (LFld (LVar "x") 2)>>; Call exp2_float <<Read (LFld (LVar "x") 3)>>>>)).
(** src/exponential.cpp 205-208 *)
Definition c_exp2_quat : fundef fn := Fun ["x"] [Tcls Cquat] (RVal (Tcls Cquat)) [] (
  Return (Call quat__float_float_float_float <<Call exp2_float <<Read (LFld (LVar "x") 3)>>; Call exp2_float <<Read (LFld (LVar "x") 0)>>; Call
    exp2_float <<Read (LFld (LVar "x") 1)>>; Call exp2_float <<Read (LFld (LVar "x") 2)>>>>)).
(** src/exponential.cpp 214-217 *)
Definition c_cbrt_float : fundef fn := Fun ["x"] [Tfloat] (RVal Tfloat) [] (
  Return (Prim Pcbrtf <<Var "x">>)).
(** src/exponential.cpp 219-222 *)
Definition c_cbrt_vec2 : fundef fn := Fun ["x"] [Tcls Cvec2] (RVal (Tcls Cvec2)) [] (
  Return (Call vec2__float_float <<Call cbrt_float <<Read (LFld (LVar "x") 0)>>; Call cbrt_float <<Read (LFld (LVar "x") 1)>>>>)).
(** src/exponential.cpp 224-227 *)
Definition c_cbrt_vec3 : fundef fn := Fun ["x"] [Tcls Cvec3] (RVal (Tcls Cvec3)) [] (
  Return (Call vec3__float_float_float <<Call cbrt_float <<Read (LFld (LVar "x") 0)>>; Call cbrt_float <<Read (LFld (LVar "x") 1)>>; Call cbrt_float
    <<Read (LFld (LVar "x") 2)>>>>)).
(** src/exponential.cpp 229-232 *)
Definition c_cbrt_vec4 : fundef fn := Fun ["x"] [Tcls Cvec4] (RVal (Tcls Cvec4)) [] (
  Return (Call vec4__float_float_float_float <<Call cbrt_float <<Read (LFld (LVar "x") 0)>>; Call cbrt_float <<Read (LFld (LVar "x") 1)>>; Call
    cbrt_float <<Read (LFld (LVar "x") 2)>>; Call cbrt_float <<Read (LFld (LVar "x") 3)>>>>)).
(** src/exponential.cpp 234-237 *)
Definition c_cbrt_quat : fundef fn := Fun ["x"] [Tcls Cquat] (RVal (Tcls Cquat)) [] (
  Return (Call quat__float_float_float_float <<Call cbrt_float <<Read (LFld (LVar "x") 3)>>; Call cbrt_float <<Read (LFld (LVar "x") 0)>>; Call
    cbrt_float <<Read (LFld (LVar "x") 1)>>; Call cbrt_float <<Read (LFld (LVar "x") 2)>>>>)).

(** ** src/angle_and_trigonometry.cpp *)
(** src/angle_and_trigonometry.cpp 14-17 *)
Definition c_degreesf_float : fundef fn := Fun ["radians"] [Tfloat] (RVal Tfloat) [] (
  Return (Bin Omul (Var "radians") (Lit 572957795130823 (-13)))).
(** src/angle_and_trigonometry.cpp 19-22 *)
Definition c_radiansf_float : fundef fn := Fun ["degrees"] [Tfloat] (RVal Tfloat) [] (
  Return (Bin Omul (Var "degrees") (Lit 1745329251994 (-14)))).
(** src/angle_and_trigonometry.cpp 29-32 *)
Definition c_cos_float : fundef fn := Fun ["angle"] [Tfloat] (RVal Tfloat) [] (
  Return (Prim Pcosf <<Var "angle">>)).
(** src/angle_and_trigonometry.cpp 34-37 *)
Definition c_cos_vec2 : fundef fn := Fun ["angle"] [Tcls Cvec2] (RVal (Tcls Cvec2)) [] (
  Return (Call vec2__float_float <<Prim Pcosf <<Read (LFld (LVar "angle") 0)>>; Prim Pcosf <<Read (LFld (LVar "angle") 1)>>>>)).
(** src/angle_and_trigonometry.cpp 39-42 *)
Definition c_cos_vec3 : fundef fn := Fun ["angle"] [Tcls Cvec3] (RVal (Tcls Cvec3)) [] (
  Return (Call vec3__float_float_float <<Prim Pcosf <<Read (LFld (LVar "angle") 0)>>; Prim Pcosf <<Read (LFld (LVar "angle") 1)>>; Prim Pcosf <<Read
    (LFld (LVar "angle") 2)>>>>)).
(** src/angle_and_trigonometry.cpp 44-47 *)
Definition c_cos_vec4 : fundef fn := Fun ["angle"] [Tcls Cvec4] (RVal (Tcls Cvec4)) [] (
  Return (Call vec4__float_float_float_float <<Prim Pcosf <<Read (LFld (LVar "angle") 0)>>; Prim Pcosf <<Read (LFld (LVar "angle") 1)>>; Prim Pcosf
    <<Read (LFld (LVar "angle") 2)>>; Prim Pcosf <<Read (LFld (LVar "angle") 3)>>>>)).
(** src/angle_and_trigonometry.cpp 51-54 *)
Definition c_sin_float : fundef fn := Fun ["angle"] [Tfloat] (RVal Tfloat) [] (
  Return (Prim Psinf <<Var "angle">>)).
(** src/angle_and_trigonometry.cpp 56-59 *)
Definition c_sin_vec2 : fundef fn := Fun ["angle"] [Tcls Cvec2] (RVal (Tcls Cvec2)) [] (
  Return (Call vec2__float_float <<Prim Psinf <<Read (LFld (LVar "angle") 0)>>; Prim Psinf <<Read (LFld (LVar "angle") 1)>>>>)).
(** src/angle_and_trigonometry.cpp 61-64 *)
Definition c_sin_vec3 : fundef fn := Fun ["angle"] [Tcls Cvec3] (RVal (Tcls Cvec3)) [] (
  Return (Call vec3__float_float_float <<Prim Psinf <<Read (LFld (LVar "angle") 0)>>; Prim Psinf <<Read (LFld (LVar "angle") 1)>>; Prim Psinf <<Read
    (LFld (LVar "angle") 2)>>>>)).
(** src/angle_and_trigonometry.cpp 66-69 *)
Definition c_sin_vec4 : fundef fn := Fun ["angle"] [Tcls Cvec4] (RVal (Tcls Cvec4)) [] (
  Return (Call vec4__float_float_float_float <<Prim Psinf <<Read (LFld (LVar "angle") 0)>>; Prim Psinf <<Read (LFld (LVar "angle") 1)>>; Prim Psinf
    <<Read (LFld (LVar "angle") 2)>>; Prim Psinf <<Read (LFld (LVar "angle") 3)>>>>)).
(** src/angle_and_trigonometry.cpp 74-77 *)
Definition c_acos_float : fundef fn := Fun ["x"] [Tfloat] (RVal Tfloat) [] (
  Return (Prim Pacosf <<Var "x">>)).
(** src/angle_and_trigonometry.cpp 79-82 *)
Definition c_acos_vec2 : fundef fn := Fun ["x"] [Tcls Cvec2] (RVal (Tcls Cvec2)) [] (
  Return (Call vec2__float_float <<Prim Pacosf <<Read (LFld (LVar "x") 0)>>; Prim Pacosf <<Read (LFld (LVar "x") 1)>>>>)).
(** src/angle_and_trigonometry.cpp 84-87 *)
Definition c_acos_vec3 : fundef fn := Fun ["x"] [Tcls Cvec3] (RVal (Tcls Cvec3)) [] (
  Return (Call vec3__float_float_float <<Prim Pacosf <<Read (LFld (LVar "x") 0)>>; Prim Pacosf <<Read (LFld (LVar "x") 1)>>; Prim Pacosf <<Read (LFld
    (LVar "x") 2)>>>>)).
(** src/angle_and_trigonometry.cpp 89-92 *)
Definition c_acos_vec4 : fundef fn := Fun ["x"] [Tcls Cvec4] (RVal (Tcls Cvec4)) [] (
  Return (Call vec4__float_float_float_float <<Prim Pacosf <<Read (LFld (LVar "x") 0)>>; Prim Pacosf <<Read (LFld (LVar "x") 1)>>; Prim Pacosf <<Read
    (LFld (LVar "x") 2)>>; Prim Pacosf <<Read (LFld (LVar "x") 3)>>>>)).
(** src/angle_and_trigonometry.cpp 97-100 *)
Definition c_acosh_float : fundef fn := Fun ["x"] [Tfloat] (RVal Tfloat) [] (
  Return (Prim Pacoshf <<Var "x">>)).
(** src/angle_and_trigonometry.cpp 102-105 *)
Definition c_acosh_vec2 : fundef fn := Fun ["x"] [Tcls Cvec2] (RVal (Tcls Cvec2)) [] (
  Return (Call vec2__float_float <<Prim Pacoshf <<Read (LFld (LVar "x") 0)>>; Prim Pacoshf <<Read (LFld (LVar "x") 1)>>>>)).
(** src/angle_and_trigonometry.cpp 107-110 *)
Definition c_acosh_vec3 : fundef fn := Fun ["x"] [Tcls Cvec3] (RVal (Tcls Cvec3)) [] (
  Return (Call vec3__float_float_float <<Prim Pacoshf <<Read (LFld (LVar "x") 0)>>; Prim Pacoshf <<Read (LFld (LVar "x") 1)>>; Prim Pacoshf <<Read (LFld
    (LVar "x") 2)>>>>)).
(** src/angle_and_trigonometry.cpp 112-115 *)
Definition c_acosh_vec4 : fundef fn := Fun ["x"] [Tcls Cvec4] (RVal (Tcls Cvec4)) [] (
  Return (Call vec4__float_float_float_float <<Prim Pacoshf <<Read (LFld (LVar "x") 0)>>; Prim Pacoshf <<Read (LFld (LVar "x") 1)>>; Prim Pacoshf <<Read
    (LFld (LVar "x") 2)>>; Prim Pacoshf <<Read (LFld (LVar "x") 3)>>>>)).
(** src/angle_and_trigonometry.cpp 121-124 *)
Definition c_asin_float : fundef fn := Fun ["x"] [Tfloat] (RVal Tfloat) [] (
  Return (Prim Pasinf <<Var "x">>)).
(** src/angle_and_trigonometry.cpp 126-129 *)
Definition c_asin_vec2 : fundef fn := Fun ["x"] [Tcls Cvec2] (RVal (Tcls Cvec2)) [] (
  Return (Call vec2__float_float <<Prim Pasinf <<Read (LFld (LVar "x") 0)>>; Prim Pasinf <<Read (LFld (LVar "x") 1)>>>>)).
(** src/angle_and_trigonometry.cpp 131-134 *)
Definition c_asin_vec3 : fundef fn := Fun ["x"] [Tcls Cvec3] (RVal (Tcls Cvec3)) [] (
  Return (Call vec3__float_float_float <<Prim Pasinf <<Read (LFld (LVar "x") 0)>>; Prim Pasinf <<Read (LFld (LVar "x") 1)>>; Prim Pasinf <<Read (LFld
    (LVar "x") 2)>>>>)).
(** src/angle_and_trigonometry.cpp 136-139 *)
Definition c_asin_vec4 : fundef fn := Fun ["x"] [Tcls Cvec4] (RVal (Tcls Cvec4)) [] (
  Return (Call vec4__float_float_float_float <<Prim Pasinf <<Read (LFld (LVar "x") 0)>>; Prim Pasinf <<Read (LFld (LVar "x") 1)>>; Prim Pasinf <<Read
    (LFld (LVar "x") 2)>>; Prim Pasinf <<Read (LFld (LVar "x") 3)>>>>)).
(** src/angle_and_trigonometry.cpp 143-146 *)
Definition c_asinh_float : fundef fn := Fun ["x"] [Tfloat] (RVal Tfloat) [] (
  Return (Prim Pasinhf <<Var "x">>)).
(** src/angle_and_trigonometry.cpp 148-151 *)
Definition c_asinh_vec2 : fundef fn := Fun ["x"] [Tcls Cvec2] (RVal (Tcls Cvec2)) [] (
  Return (Call vec2__float_float <<Prim Pasinhf <<Read (LFld (LVar "x") 0)>>; Prim Pasinhf <<Read (LFld (LVar "x") 1)>>>>)).
(** src/angle_and_trigonometry.cpp 153-156 *)
Definition c_asinh_vec3 : fundef fn := Fun ["x"] [Tcls Cvec3] (RVal (Tcls Cvec3)) [] (
  Return (Call vec3__float_float_float <<Prim Pasinhf <<Read (LFld (LVar "x") 0)>>; Prim Pasinhf <<Read (LFld (LVar "x") 1)>>; Prim Pasinhf <<Read (LFld
    (LVar "x") 2)>>>>)).
(** src/angle_and_trigonometry.cpp 158-161 *)
Definition c_asinh_vec4 : fundef fn := Fun ["x"] [Tcls Cvec4] (RVal (Tcls Cvec4)) [] (
  Return (Call vec4__float_float_float_float <<Prim Pasinhf <<Read (LFld (LVar "x") 0)>>; Prim Pasinhf <<Read (LFld (LVar "x") 1)>>; Prim Pasinhf <<Read
    (LFld (LVar "x") 2)>>; Prim Pasinhf <<Read (LFld (LVar "x") 3)>>>>)).
(** src/angle_and_trigonometry.cpp 165-168 *)
Definition c_atan_float_float : fundef fn := Fun ["y"; "x"] [Tfloat; Tfloat] (RVal Tfloat) [] (
  Return (Prim Patan2f <<Var "y"; Var "x">>)).
(** src/angle_and_trigonometry.cpp 170-173 *)
Definition c_atan_vec2_vec2 : fundef fn := Fun ["y"; "x"] [Tcls Cvec2; Tcls Cvec2] (RVal (Tcls Cvec2)) [] (
  Return (Call vec2__float_float <<Prim Patan2f <<Call vec2__index_const <<Var "y"; UInt 0>>; Call vec2__index_const <<Var "x"; UInt 0>>>>; Prim Patan2f
    <<Call vec2__index_const <<Var "y"; UInt 1>>; Call vec2__index_const <<Var "x"; UInt 1>>>>>>)).
(** src/angle_and_trigonometry.cpp 175-178 *)
Definition c_atan_vec3_vec3 : fundef fn := Fun ["y"; "x"] [Tcls Cvec3; Tcls Cvec3] (RVal (Tcls Cvec3)) [] (
  Return (Call vec3__float_float_float <<Prim Patan2f <<Call vec3__index_const <<Var "y"; UInt 0>>; Call vec3__index_const <<Var "x"; UInt 0>>>>; Prim
    Patan2f <<Call vec3__index_const <<Var "y"; UInt 1>>; Call vec3__index_const <<Var "x"; UInt 1>>>>; Prim Patan2f <<Call vec3__index_const <<Var
    "y"; UInt 2>>; Call vec3__index_const <<Var "x"; UInt 2>>>>>>)).
(** src/angle_and_trigonometry.cpp 180-183 *)
Definition c_atan_vec4_vec4 : fundef fn := Fun ["y"; "x"] [Tcls Cvec4; Tcls Cvec4] (RVal (Tcls Cvec4)) [] (
  Return (Call vec4__float_float_float_float <<Prim Patan2f <<Read (LIdx vec4__index (LVar "y") (UInt 0)); Read (LIdx vec4__index (LVar "x") (UInt
    0))>>; Prim Patan2f <<Read (LIdx vec4__index (LVar "y") (UInt 1)); Read (LIdx vec4__index (LVar "x") (UInt 1))>>; Prim Patan2f <<Read (LIdx
    vec4__index (LVar "y") (UInt 2)); Read (LIdx vec4__index (LVar "x") (UInt 2))>>; Prim Patan2f <<Read (LIdx vec4__index (LVar "y") (UInt 3)); Read
    (LIdx vec4__index (LVar "x") (UInt 3))>>>>)).
(** src/angle_and_trigonometry.cpp 187-190 *)
Definition c_atan_float : fundef fn := Fun ["y_over_x"] [Tfloat] (RVal Tfloat) [] (
  Return (Prim Patanf <<Var "y_over_x">>)).
(** src/angle_and_trigonometry.cpp 192-195 *)
Definition c_atan_vec2 : fundef fn := Fun ["y_over_x"] [Tcls Cvec2] (RVal (Tcls Cvec2)) [] (
  Return (Call vec2__float_float <<Prim Patanf <<Read (LFld (LVar "y_over_x") 0)>>; Prim Patanf <<Read (LFld (LVar "y_over_x") 1)>>>>)).
(** src/angle_and_trigonometry.cpp 197-200 *)
Definition c_atan_vec3 : fundef fn := Fun ["y_over_x"] [Tcls Cvec3] (RVal (Tcls Cvec3)) [] (
  Return (Call vec3__float_float_float <<Prim Patanf <<Read (LFld (LVar "y_over_x") 0)>>; Prim Patanf <<Read (LFld (LVar "y_over_x") 1)>>; Prim Patanf
    <<Read (LFld (LVar "y_over_x") 2)>>>>)).
(** src/angle_and_trigonometry.cpp 202-205 *)
Definition c_atan_vec4 : fundef fn := Fun ["y_over_x"] [Tcls Cvec4] (RVal (Tcls Cvec4)) [] (
  Return (Call vec4__float_float_float_float <<Prim Patanf <<Read (LFld (LVar "y_over_x") 0)>>; Prim Patanf <<Read (LFld (LVar "y_over_x") 1)>>; Prim
    Patanf <<Read (LFld (LVar "y_over_x") 2)>>; Prim Patanf <<Read (LFld (LVar "y_over_x") 3)>>>>)).
(** src/angle_and_trigonometry.cpp 210-213 *)
Definition c_atanh_float : fundef fn := Fun ["x"] [Tfloat] (RVal Tfloat) [] (
  Return (Prim Patanhf <<Var "x">>)).
(** src/angle_and_trigonometry.cpp 215-218 *)
Definition c_atanh_vec2 : fundef fn := Fun ["x"] [Tcls Cvec2] (RVal (Tcls Cvec2)) [] (
  Return (Call vec2__float_float <<Prim Patanhf <<Read (LFld (LVar "x") 0)>>; Prim Patanhf <<Read (LFld (LVar "x") 1)>>>>)).
(** src/angle_and_trigonometry.cpp 220-223 *)
Definition c_atanh_vec3 : fundef fn := Fun ["x"] [Tcls Cvec3] (RVal (Tcls Cvec3)) [] (
  Return (Call vec3__float_float_float <<Prim Patanhf <<Read (LFld (LVar "x") 0)>>; Prim Patanhf <<Read (LFld (LVar "x") 1)>>; Prim Patanhf <<Read (LFld
    (LVar "x") 2)>>>>)).
(** src/angle_and_trigonometry.cpp 225-228 *)
Definition c_atanh_vec4 : fundef fn := Fun ["x"] [Tcls Cvec4] (RVal (Tcls Cvec4)) [] (
  Return (Call vec4__float_float_float_float <<Prim Patanhf <<Read (LFld (LVar "x") 0)>>; Prim Patanhf <<Read (LFld (LVar "x") 1)>>; Prim Patanhf <<Read
    (LFld (LVar "x") 2)>>; Prim Patanhf <<Read (LFld (LVar "x") 3)>>>>)).
(** src/angle_and_trigonometry.cpp 234-237 *)
Definition c_cosh_float : fundef fn := Fun ["angle"] [Tfloat] (RVal Tfloat) [] (
  Return (Prim Pcoshf <<Var "angle">>)).
(** src/angle_and_trigonometry.cpp 239-242 *)
Definition c_cosh_vec2 : fundef fn := Fun ["angle"] [Tcls Cvec2] (RVal (Tcls Cvec2)) [] (
  Return (Call vec2__float_float <<Prim Pcoshf <<Read (LFld (LVar "angle") 0)>>; Prim Pcoshf <<Read (LFld (LVar "angle") 1)>>>>)).
(** src/angle_and_trigonometry.cpp 244-247 *)
Definition c_cosh_vec3 : fundef fn := Fun ["angle"] [Tcls Cvec3] (RVal (Tcls Cvec3)) [] (
  Return (Call vec3__float_float_float <<Prim Pcoshf <<Read (LFld (LVar "angle") 0)>>; Prim Pcoshf <<Read (LFld (LVar "angle") 1)>>; Prim Pcoshf <<Read
    (LFld (LVar "angle") 2)>>>>)).
(** src/angle_and_trigonometry.cpp 249-252 *)
Definition c_cosh_vec4 : fundef fn := Fun ["angle"] [Tcls Cvec4] (RVal (Tcls Cvec4)) [] (
  Return (Call vec4__float_float_float_float <<Prim Pcoshf <<Read (LFld (LVar "angle") 0)>>; Prim Pcoshf <<Read (LFld (LVar "angle") 1)>>; Prim Pcoshf
    <<Read (LFld (LVar "angle") 2)>>; Prim Pcoshf <<Read (LFld (LVar "angle") 3)>>>>)).
(** src/angle_and_trigonometry.cpp 256-259 *)
Definition c_degrees_float : fundef fn := Fun ["radians"] [Tfloat] (RVal Tfloat) [] (
  Return (Call degreesf_float <<Var "radians">>)).
(** src/angle_and_trigonometry.cpp 261-264 *)
Definition c_degrees_vec2 : fundef fn := Fun ["radians"] [Tcls Cvec2] (RVal (Tcls Cvec2)) [] (
  Return (Call vec2__float_float <<Call degreesf_float <<Read (LFld (LVar "radians") 0)>>; Call degreesf_float <<Read (LFld (LVar "radians") 1)>>>>)).
(** src/angle_and_trigonometry.cpp 266-269 *)
Definition c_degrees_vec3 : fundef fn := Fun ["radians"] [Tcls Cvec3] (RVal (Tcls Cvec3)) [] (
  Return (Call vec3__float_float_float <<Call degreesf_float <<Read (LFld (LVar "radians") 0)>>; Call degreesf_float <<Read (LFld (LVar "radians") 1)>>;
    Call degreesf_float <<Read (LFld (LVar "radians") 2)>>>>)).
(** src/angle_and_trigonometry.cpp 271-274 *)
Definition c_degrees_vec4 : fundef fn := Fun ["radians"] [Tcls Cvec4] (RVal (Tcls Cvec4)) [] (
  Return (Call vec4__float_float_float_float <<Call degreesf_float <<Read (LFld (LVar "radians") 0)>>; Call degreesf_float <<Read (LFld (LVar "radians")
    1)>>; Call degreesf_float <<Read (LFld (LVar "radians") 2)>>; Call degreesf_float <<Read (LFld (LVar "radians") 3)>>>>)).
(** src/angle_and_trigonometry.cpp 278-281 *)
Definition c_radians_float : fundef fn := Fun ["degrees"] [Tfloat] (RVal Tfloat) [] (
  Return (Call radiansf_float <<Var "degrees">>)).
(** src/angle_and_trigonometry.cpp 283-286 *)
Definition c_radians_vec2 : fundef fn := Fun ["degrees"] [Tcls Cvec2] (RVal (Tcls Cvec2)) [] (
  Return (Call vec2__float_float <<Call radiansf_float <<Read (LFld (LVar "degrees") 0)>>; Call radiansf_float <<Read (LFld (LVar "degrees") 1)>>>>)).
(** src/angle_and_trigonometry.cpp 288-291 *)
Definition c_radians_vec3 : fundef fn := Fun ["degrees"] [Tcls Cvec3] (RVal (Tcls Cvec3)) [] (
  Return (Call vec3__float_float_float <<Call radiansf_float <<Read (LFld (LVar "degrees") 0)>>; Call radiansf_float <<Read (LFld (LVar "degrees") 1)>>;
    Call radiansf_float <<Read (LFld (LVar "degrees") 2)>>>>)).
(** src/angle_and_trigonometry.cpp 293-296 *)
Definition c_radians_vec4 : fundef fn := Fun ["degrees"] [Tcls Cvec4] (RVal (Tcls Cvec4)) [] (
  Return (Call vec4__float_float_float_float <<Call radiansf_float <<Read (LFld (LVar "degrees") 0)>>; Call radiansf_float <<Read (LFld (LVar "degrees")
    1)>>; Call radiansf_float <<Read (LFld (LVar "degrees") 2)>>; Call radiansf_float <<Read (LFld (LVar "degrees") 3)>>>>)).
(** src/angle_and_trigonometry.cpp 301-304 *)
Definition c_sinh_float : fundef fn := Fun ["angle"] [Tfloat] (RVal Tfloat) [] (
  Return (Prim Psinhf <<Var "angle">>)).
(** src/angle_and_trigonometry.cpp 306-309 *)
Definition c_sinh_vec2 : fundef fn := Fun ["angle"] [Tcls Cvec2] (RVal (Tcls Cvec2)) [] (
  Return (Call vec2__float_float <<Prim Psinhf <<Read (LFld (LVar "angle") 0)>>; Prim Psinhf <<Read (LFld (LVar "angle") 1)>>>>)).
(** src/angle_and_trigonometry.cpp 311-314 *)
Definition c_sinh_vec3 : fundef fn := Fun ["angle"] [Tcls Cvec3] (RVal (Tcls Cvec3)) [] (
  Return (Call vec3__float_float_float <<Prim Psinhf <<Read (LFld (LVar "angle") 0)>>; Prim Psinhf <<Read (LFld (LVar "angle") 1)>>; Prim Psinhf <<Read
    (LFld (LVar "angle") 2)>>>>)).
(** src/angle_and_trigonometry.cpp 316-319 *)
Definition c_sinh_vec4 : fundef fn := Fun ["angle"] [Tcls Cvec4] (RVal (Tcls Cvec4)) [] (
  Return (Call vec4__float_float_float_float <<Prim Psinhf <<Read (LFld (LVar "angle") 0)>>; Prim Psinhf <<Read (LFld (LVar "angle") 1)>>; Prim Psinhf
    <<Read (LFld (LVar "angle") 2)>>; Prim Psinhf <<Read (LFld (LVar "angle") 3)>>>>)).
(** src/angle_and_trigonometry.cpp 325-328 *)
Definition c_tan_float : fundef fn := Fun ["angle"] [Tfloat] (RVal Tfloat) [] (
  Return (Prim Ptanf <<Var "angle">>)).
(** src/angle_and_trigonometry.cpp 330-333 *)
Definition c_tan_vec2 : fundef fn := Fun ["angle"] [Tcls Cvec2] (RVal (Tcls Cvec2)) [] (
  Return (Call vec2__float_float <<Prim Ptanf <<Read (LFld (LVar "angle") 0)>>; Prim Ptanf <<Read (LFld (LVar "angle") 1)>>>>)).
(** src/angle_and_trigonometry.cpp 335-338 *)
Definition c_tan_vec3 : fundef fn := Fun ["angle"] [Tcls Cvec3] (RVal (Tcls Cvec3)) [] (
  Return (Call vec3__float_float_float <<Prim Ptanf <<Read (LFld (LVar "angle") 0)>>; Prim Ptanf <<Read (LFld (LVar "angle") 1)>>; Prim Ptanf <<Read
    (LFld (LVar "angle") 2)>>>>)).
(** src/angle_and_trigonometry.cpp 340-343 *)
Definition c_tan_vec4 : fundef fn := Fun ["angle"] [Tcls Cvec4] (RVal (Tcls Cvec4)) [] (
  Return (Call vec4__float_float_float_float <<Prim Ptanf <<Read (LFld (LVar "angle") 0)>>; Prim Ptanf <<Read (LFld (LVar "angle") 1)>>; Prim Ptanf
    <<Read (LFld (LVar "angle") 2)>>; Prim Ptanf <<Read (LFld (LVar "angle") 3)>>>>)).
(** src/angle_and_trigonometry.cpp 349-352 *)
Definition c_tanh_float : fundef fn := Fun ["angle"] [Tfloat] (RVal Tfloat) [] (
  Return (Prim Ptanhf <<Var "angle">>)).
(** src/angle_and_trigonometry.cpp 354-357 *)
Definition c_tanh_vec2 : fundef fn := Fun ["angle"] [Tcls Cvec2] (RVal (Tcls Cvec2)) [] (
  Return (Call vec2__float_float <<Prim Ptanhf <<Read (LFld (LVar "angle") 0)>>; Prim Ptanhf <<Read (LFld (LVar "angle") 1)>>>>)).
(** src/angle_and_trigonometry.cpp 359-362 *)
Definition c_tanh_vec3 : fundef fn := Fun ["angle"] [Tcls Cvec3] (RVal (Tcls Cvec3)) [] (
  Return (Call vec3__float_float_float <<Prim Ptanhf <<Read (LFld (LVar "angle") 0)>>; Prim Ptanhf <<Read (LFld (LVar "angle") 1)>>; Prim Ptanhf <<Read
    (LFld (LVar "angle") 2)>>>>)).
(** src/angle_and_trigonometry.cpp 364-367 *)
Definition c_tanh_vec4 : fundef fn := Fun ["angle"] [Tcls Cvec4] (RVal (Tcls Cvec4)) [] (
  Return (Call vec4__float_float_float_float <<Prim Ptanhf <<Read (LFld (LVar "angle") 0)>>; Prim Ptanhf <<Read (LFld (LVar "angle") 1)>>; Prim Ptanhf
    <<Read (LFld (LVar "angle") 2)>>; Prim Ptanhf <<Read (LFld (LVar "angle") 3)>>>>)).

(** ** src/component_wise.cpp *)
(** src/component_wise.cpp 11-14 *)
Definition c_compAdd_vec2 : fundef fn := Fun ["v"] [Tcls Cvec2] (RVal Tfloat) [] (
  Return (Bin Oadd (Read (LFld (LVar "v") 0)) (Read (LFld (LVar "v") 1)))).
(** src/component_wise.cpp 16-19 *)
Definition c_compAdd_vec3 : fundef fn := Fun ["v"] [Tcls Cvec3] (RVal Tfloat) [] (
  Return (Bin Oadd (Bin Oadd (Read (LFld (LVar "v") 0)) (Read (LFld (LVar "v") 1))) (Read (LFld (LVar "v") 2)))).
(** src/component_wise.cpp 21-24 *)
Definition c_compAdd_vec4 : fundef fn := Fun ["v"] [Tcls Cvec4] (RVal Tfloat) [] (
  Return (Bin Oadd (Bin Oadd (Bin Oadd (Read (LFld (LVar "v") 0)) (Read (LFld (LVar "v") 1))) (Read (LFld (LVar "v") 2))) (Read (LFld (LVar "v") 3)))).
(** src/component_wise.cpp 26-29 *)
Definition c_compAdd_ivec2 : fundef fn := Fun ["v"] [Tcls Civec2] (RVal Tint) [] (
  Return (Bin Oadd (Read (LFld (LVar "v") 0)) (Read (LFld (LVar "v") 1)))).
(** src/component_wise.cpp 31-34 *)
Definition c_compAdd_ivec3 : fundef fn := Fun ["v"] [Tcls Civec3] (RVal Tint) [] (
  Return (Bin Oadd (Bin Oadd (Read (LFld (LVar "v") 0)) (Read (LFld (LVar "v") 1))) (Read (LFld (LVar "v") 2)))).
(** src/component_wise.cpp 36-39 *)
Definition c_compAdd_ivec4 : fundef fn := Fun ["v"] [Tcls Civec4] (RVal Tint) [] (
  Return (Bin Oadd (Bin Oadd (Bin Oadd (Read (LFld (LVar "v") 0)) (Read (LFld (LVar "v") 1))) (Read (LFld (LVar "v") 2))) (Read (LFld (LVar "v") 3)))).
(** src/component_wise.cpp 41-44 *)
Definition c_compMul_vec2 : fundef fn := Fun ["v"] [Tcls Cvec2] (RVal Tfloat) [] (
  Return (Bin Omul (Read (LFld (LVar "v") 0)) (Read (LFld (LVar "v") 1)))).
(** src/component_wise.cpp 46-49 *)
Definition c_compMul_vec3 : fundef fn := Fun ["v"] [Tcls Cvec3] (RVal Tfloat) [] (
  Return (Bin Omul (Bin Omul (Read (LFld (LVar "v") 0)) (Read (LFld (LVar "v") 1))) (Read (LFld (LVar "v") 2)))).
(** src/component_wise.cpp 51-54 *)
Definition c_compMul_vec4 : fundef fn := Fun ["v"] [Tcls Cvec4] (RVal Tfloat) [] (
  Return (Bin Omul (Bin Omul (Bin Omul (Read (LFld (LVar "v") 0)) (Read (LFld (LVar "v") 1))) (Read (LFld (LVar "v") 2))) (Read (LFld (LVar "v") 3)))).
(** src/component_wise.cpp 56-59 *)
Definition c_compMul_ivec2 : fundef fn := Fun ["v"] [Tcls Civec2] (RVal Tint) [] (
  Return (Bin Omul (Read (LFld (LVar "v") 0)) (Read (LFld (LVar "v") 1)))).
(** src/component_wise.cpp 61-64 *)
Definition c_compMul_ivec3 : fundef fn := Fun ["v"] [Tcls Civec3] (RVal Tint) [] (
  Return (Bin Omul (Bin Omul (Read (LFld (LVar "v") 0)) (Read (LFld (LVar "v") 1))) (Read (LFld (LVar "v") 2)))).
(** src/component_wise.cpp 66-69 *)
Definition c_compMul_ivec4 : fundef fn := Fun ["v"] [Tcls Civec4] (RVal Tint) [] (
  Return (Bin Omul (Bin Omul (Bin Omul (Read (LFld (LVar "v") 0)) (Read (LFld (LVar "v") 1))) (Read (LFld (LVar "v") 2))) (Read (LFld (LVar "v") 3)))).
(** src/component_wise.cpp 71-74 *)
Definition c_compMin_vec2 : fundef fn := Fun ["v"] [Tcls Cvec2] (RVal Tfloat) [] (
  Return (Call min_float_float <<Read (LFld (LVar "v") 0); Read (LFld (LVar "v") 1)>>)).
(** src/component_wise.cpp 76-79 *)
Definition c_compMin_vec3 : fundef fn := Fun ["v"] [Tcls Cvec3] (RVal Tfloat) [] (
  Return (Call min_float_float <<Read (LFld (LVar "v") 0); Call min_float_float <<Read (LFld (LVar "v") 1); Read (LFld (LVar "v") 2)>>>>)).
(** src/component_wise.cpp 81-84 *)
Definition c_compMin_vec4 : fundef fn := Fun ["v"] [Tcls Cvec4] (RVal Tfloat) [] (
  Return (Call min_float_float <<Call min_float_float <<Read (LFld (LVar "v") 0); Read (LFld (LVar "v") 1)>>; Call min_float_float <<Read (LFld (LVar
    "v") 2); Read (LFld (LVar "v") 3)>>>>)).
(** src/component_wise.cpp 86-89 *)
Definition c_compMin_ivec2 : fundef fn := Fun ["v"] [Tcls Civec2] (RVal Tint) [] (
  Return (Call min_int_int <<Read (LFld (LVar "v") 0); Read (LFld (LVar "v") 1)>>)).
(** src/component_wise.cpp 91-94 *)
Definition c_compMin_ivec3 : fundef fn := Fun ["v"] [Tcls Civec3] (RVal Tint) [] (
  Return (Call min_int_int <<Read (LFld (LVar "v") 0); Call min_int_int <<Read (LFld (LVar "v") 1); Read (LFld (LVar "v") 2)>>>>)).
(** src/component_wise.cpp 96-99 *)
Definition c_compMin_ivec4 : fundef fn := Fun ["v"] [Tcls Civec4] (RVal Tint) [] (
  Return (Call min_int_int <<Call min_int_int <<Read (LFld (LVar "v") 0); Read (LFld (LVar "v") 1)>>; Call min_int_int <<Read (LFld (LVar "v") 2); Read
    (LFld (LVar "v") 3)>>>>)).
(** src/component_wise.cpp 101-104 *)
Definition c_compMax_vec2 : fundef fn := Fun ["v"] [Tcls Cvec2] (RVal Tfloat) [] (
  Return (Call max_float_float <<Read (LFld (LVar "v") 0); Read (LFld (LVar "v") 1)>>)).
(** src/component_wise.cpp 106-109 *)
Definition c_compMax_vec3 : fundef fn := Fun ["v"] [Tcls Cvec3] (RVal Tfloat) [] (
  Return (Call max_float_float <<Read (LFld (LVar "v") 0); Call max_float_float <<Read (LFld (LVar "v") 1); Read (LFld (LVar "v") 2)>>>>)).
(** src/component_wise.cpp 111-114 *)
Definition c_compMax_vec4 : fundef fn := Fun ["v"] [Tcls Cvec4] (RVal Tfloat) [] (
  Return (Call max_float_float <<Call max_float_float <<Read (LFld (LVar "v") 0); Read (LFld (LVar "v") 1)>>; Call max_float_float <<Read (LFld (LVar
    "v") 2); Read (LFld (LVar "v") 3)>>>>)).
(** src/component_wise.cpp 116-119 *)
Definition c_compMax_ivec2 : fundef fn := Fun ["v"] [Tcls Civec2] (RVal Tint) [] (
  Return (Call max_int_int <<Read (LFld (LVar "v") 0); Read (LFld (LVar "v") 1)>>)).
(** src/component_wise.cpp 121-124 *)
Definition c_compMax_ivec3 : fundef fn := Fun ["v"] [Tcls Civec3] (RVal Tint) [] (
  Return (Call max_int_int <<Read (LFld (LVar "v") 0); Call max_int_int <<Read (LFld (LVar "v") 1); Read (LFld (LVar "v") 2)>>>>)).
(** src/component_wise.cpp 126-129 *)
Definition c_compMax_ivec4 : fundef fn := Fun ["v"] [Tcls Civec4] (RVal Tint) [] (
  Return (Call max_int_int <<Call max_int_int <<Read (LFld (LVar "v") 0); Read (LFld (LVar "v") 1)>>; Call max_int_int <<Read (LFld (LVar "v") 2); Read
    (LFld (LVar "v") 3)>>>>)).

(** ** src/constants.cpp *)
(** src/constants.cpp 4-7 *)
Definition c_epsilon : fundef fn := Fun [] [] (RVal Tfloat) [] (
  Return (Lit 11920928955078125 (-23))).
(** src/constants.cpp 9-12 *)
Definition c_zero : fundef fn := Fun [] [] (RVal Tfloat) [] (
  Return (Lit 0 0)).
(** src/constants.cpp 14-17 *)
Definition c_one : fundef fn := Fun [] [] (RVal Tfloat) [] (
  Return (Lit 1 0)).
(** src/constants.cpp 19-22 *)
Definition c_pi : fundef fn := Fun [] [] (RVal Tfloat) [] (
  Return (Lit 314159265358979323846264338327950288 (-35))).
(** src/constants.cpp 24-27 *)
Definition c_two_pi : fundef fn := Fun [] [] (RVal Tfloat) [] (
  Return (Lit 628318530717958647692528676655900576 (-35))).
(** src/constants.cpp 29-32 *)
Definition c_root_pi : fundef fn := Fun [] [] (RVal Tfloat) [] (
  Return (Lit 1772453850905516027 (-18))).
(** src/constants.cpp 34-37 *)
Definition c_half_pi : fundef fn := Fun [] [] (RVal Tfloat) [] (
  Return (Lit 157079632679489661923132169163975144 (-35))).
(** src/constants.cpp 39-42 *)
Definition c_three_over_two_pi : fundef fn := Fun [] [] (RVal Tfloat) [] (
  Return (Lit 471238898038468985769396507491925432 (-35))).
(** src/constants.cpp 44-47 *)
Definition c_quarter_pi : fundef fn := Fun [] [] (RVal Tfloat) [] (
  Return (Lit 785398163397448309615660845819875721 (-36))).
(** src/constants.cpp 49-52 *)
Definition c_one_over_pi : fundef fn := Fun [] [] (RVal Tfloat) [] (
  Return (Lit 318309886183790671537767526745028724 (-36))).
(** src/constants.cpp 54-57 *)
Definition c_one_over_two_pi : fundef fn := Fun [] [] (RVal Tfloat) [] (
  Return (Lit 159154943091895335768883763372514362 (-36))).
(** src/constants.cpp 59-62 *)
Definition c_two_over_pi : fundef fn := Fun [] [] (RVal Tfloat) [] (
  Return (Lit 636619772367581343075535053490057448 (-36))).
(** src/constants.cpp 64-67 *)
Definition c_four_over_pi : fundef fn := Fun [] [] (RVal Tfloat) [] (
  Return (Lit 1273239544735162686151070106980114898 (-36))).
(** src/constants.cpp 69-72 *)
Definition c_two_over_root_pi : fundef fn := Fun [] [] (RVal Tfloat) [] (
  Return (Lit 112837916709551257389615890312154517 (-35))).
(** src/constants.cpp 74-77 *)
Definition c_one_over_root_two : fundef fn := Fun [] [] (RVal Tfloat) [] (
  Return (Lit 707106781186547524400844362104849039 (-36))).
(** src/constants.cpp 79-82 *)
Definition c_root_half_pi : fundef fn := Fun [] [] (RVal Tfloat) [] (
  Return (Lit 1253314137315500251 (-18))).
(** src/constants.cpp 84-87 *)
Definition c_root_two_pi : fundef fn := Fun [] [] (RVal Tfloat) [] (
  Return (Lit 2506628274631000502 (-18))).
(** src/constants.cpp 89-92 *)
Definition c_root_ln_four : fundef fn := Fun [] [] (RVal Tfloat) [] (
  Return (Lit 117741002251547469 (-17))).
(** src/constants.cpp 94-97 *)
Definition c_e : fundef fn := Fun [] [] (RVal Tfloat) [] (
  Return (Lit 271828182845904523536 (-20))).
(** src/constants.cpp 99-102 *)
Definition c_euler : fundef fn := Fun [] [] (RVal Tfloat) [] (
  Return (Lit 577215664901532860606 (-21))).
(** src/constants.cpp 104-107 *)
Definition c_root_two : fundef fn := Fun [] [] (RVal Tfloat) [] (
  Return (Lit 141421356237309504880168872420969808 (-35))).
(** src/constants.cpp 109-112 *)
Definition c_root_three : fundef fn := Fun [] [] (RVal Tfloat) [] (
  Return (Lit 173205080756887729352744634150587236 (-35))).
(** src/constants.cpp 114-117 *)
Definition c_root_five : fundef fn := Fun [] [] (RVal Tfloat) [] (
  Return (Lit 223606797749978969640917366873127623 (-35))).
(** src/constants.cpp 119-122 *)
Definition c_ln_two : fundef fn := Fun [] [] (RVal Tfloat) [] (
  Return (Lit 693147180559945309417232121458176568 (-36))).
(** src/constants.cpp 124-127 *)
Definition c_ln_ten : fundef fn := Fun [] [] (RVal Tfloat) [] (
  Return (Lit 230258509299404568401799145468436421 (-35))).
(** src/constants.cpp 129-132 *)
Definition c_ln_ln_two : fundef fn := Fun [] [] (RVal Tfloat) [] (
  Return (Un Oneg (Lit 3665129205816643 (-16)))).
(** src/constants.cpp 134-137 *)
Definition c_third : fundef fn := Fun [] [] (RVal Tfloat) [] (
  Return (Lit 3333333333333333333333333333333333333333 (-40))).
(** src/constants.cpp 139-142 *)
Definition c_two_thirds : fundef fn := Fun [] [] (RVal Tfloat) [] (
  Return (Lit 666666666666666666666666666666666666667 (-39))).
(** src/constants.cpp 144-147 *)
Definition c_golden_ratio : fundef fn := Fun [] [] (RVal Tfloat) [] (
  Return (Lit 161803398874989484820458683436563811 (-35))).
