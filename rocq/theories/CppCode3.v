(** * The source code, statement by statement: colours, matrix functions, transforms and quaternion functions

    Every definition is the function at the cited lines of /repo, in the syntax of Cpp.v. *)
From Coq Require Import ZArith NArith List String.
From Verif Require Import Cpp CppNames.
Import ListNotations.
Local Open Scope string_scope.
Local Open Scope cpp_scope.

(** ** src/color_space.cpp *)
(** src/color_space.cpp 8-11 *)
Definition c_convertLinearToSRGB_vec4_float : fundef fn := Fun ["ColorLinear"; "Gamma"] [Tcls Cvec4; Tfloat] (RVal (Tcls Cvec4)) [] (
  Return (Call vec4__vec3_float <<Call convertLinearToSRGB_vec3_float <<New Cvec3 <<Read (LFld (LVar "ColorLinear") 0); Read (LFld (LVar "ColorLinear")
    1); Read (LFld (LVar "ColorLinear") 2)>>; Var "Gamma">>; Read (LFld (LVar "ColorLinear") 3)>>)).
(** src/color_space.cpp 13-19 *)
Definition c_convertLinearToSRGB_vec3_float : fundef fn := Fun ["colorLinear"; "Gamma"] [Tcls Cvec3; Tfloat] (RVal (Tcls Cvec3)) [] (
  Decl "ClampedColor" (Some (Call clamp_vec3_vec3_vec3 <<Var "colorLinear"; Call vec3__int <<Int 0>>; Call vec3__int <<Int 1>>>>));;
  Return (Call mix_vec3_vec3_bvec3 <<Call op_sub_vec3_float <<Call op_mul_vec3_float <<Call pow_vec3_vec3 <<Var "ClampedColor"; Call vec3__float <<Var
    "Gamma">>>>; Lit 1055 (-3)>>; Lit 55 (-3)>>; Call op_mul_vec3_float <<Var "ClampedColor"; Lit 1292 (-2)>>; Call lessThan_vec3_vec3 <<Var
    "ClampedColor"; Call vec3__float <<Lit 31308 (-7)>>>>>>)).
(** src/color_space.cpp 21-28 *)
Definition c_convertLinearToSRGB_vec3 : fundef fn := Fun ["colorLinear"] [Tcls Cvec3] (RVal (Tcls Cvec3)) [] (
  Decl "S1" (Some (Call sqrt_vec3 <<Var "colorLinear">>));;
  Decl "S2" (Some (Call sqrt_vec3 <<Var "S1">>));;
  Decl "S3" (Some (Call sqrt_vec3 <<Var "S2">>));;
  Return (Call op_sub_vec3_vec3 <<Call op_sub_vec3_vec3 <<Call op_add_vec3_vec3 <<Call op_mul_float_vec3 <<Lit 662002687 (-9); Var "S1">>; Call
    op_mul_float_vec3 <<Lit 684122060 (-9); Var "S2">>>>; Call op_mul_float_vec3 <<Lit 323583601 (-9); Var "S3">>>>; Call op_mul_float_vec3 <<Lit
    225411470 (-10); Var "colorLinear">>>>)).
(** src/color_space.cpp 30-33 *)
Definition c_convertLinearToSRGB_vec4 : fundef fn := Fun ["colorLinear"] [Tcls Cvec4] (RVal (Tcls Cvec4)) [] (
  Return (Call vec4__vec3_float <<Call convertLinearToSRGB_vec3 <<New Cvec3 <<Read (LFld (LVar "colorLinear") 0); Read (LFld (LVar "colorLinear") 1);
    Read (LFld (LVar "colorLinear") 2)>>>>; Read (LFld (LVar "colorLinear") 3)>>)).
(** src/color_space.cpp 36-41 *)
Definition c_convertSRGBToLinear_vec3_float : fundef fn := Fun ["ColorSRGB"; "Gamma"] [Tcls Cvec3; Tfloat] (RVal (Tcls Cvec3)) [] (
  Return (Call mix_vec3_vec3_bvec3 <<Call pow_vec3_vec3 <<Call op_mul_vec3_float <<Call op_add_vec3_float <<Var "ColorSRGB"; Lit 55 (-3)>>; Lit
    94786729857819905213270142180095 (-32)>>; Call vec3__float <<Var "Gamma">>>>; Call op_mul_vec3_float <<Var "ColorSRGB"; Lit
    7739938080495356037151702786378 (-32)>>; Call lessThanEqual_vec3_vec3 <<Var "ColorSRGB"; Call vec3__float <<Lit 4045 (-5)>>>>>>)).
(** src/color_space.cpp 43-46 *)
Definition c_convertSRGBToLinear_vec4_float : fundef fn := Fun ["ColorSRGB"; "Gamma"] [Tcls Cvec4; Tfloat] (RVal (Tcls Cvec4)) [] (
  Return (Call vec4__vec3_float <<Call convertSRGBToLinear_vec3_float <<New Cvec3 <<Read (LFld (LVar "ColorSRGB") 0); Read (LFld (LVar "ColorSRGB") 1);
    Read (LFld (LVar "ColorSRGB") 2)>>; Var "Gamma">>; Read (LFld (LVar "ColorSRGB") 3)>>)).
(** src/color_space.cpp 48-51 *)
Definition c_convertSRGBToLinear_vec3 : fundef fn := Fun ["ColorSRGB"] [Tcls Cvec3] (RVal (Tcls Cvec3)) [] (
  Return (Call convertSRGBToLinear_vec3_float <<Var "ColorSRGB"; Lit 24 (-1)>>)).
(** src/color_space.cpp 53-56 *)
Definition c_convertSRGBToLinear_vec4 : fundef fn := Fun ["ColorSRGB"] [Tcls Cvec4] (RVal (Tcls Cvec4)) [] (
  Return (Call vec4__vec3_float <<Call convertSRGBToLinear_vec3_float <<New Cvec3 <<Read (LFld (LVar "ColorSRGB") 0); Read (LFld (LVar "ColorSRGB") 1);
    Read (LFld (LVar "ColorSRGB") 2)>>; Lit 24 (-1)>>; Read (LFld (LVar "ColorSRGB") 3)>>)).

(** ** src/matrix.cpp *)
(** src/matrix.cpp 6-9 *)
Definition c_matrixCompMult_mat2_mat2 : fundef fn := Fun ["x"; "y"] [Tcls Cmat2; Tcls Cmat2] (RVal (Tcls Cmat2)) [] (
  Return (Call mat2__vec2_vec2 <<Call op_mul_vec2_vec2 <<Call mat2__index_const <<Var "x"; UInt 0>>; Call mat2__index_const <<Var "y"; UInt 0>>>>; Call
    op_mul_vec2_vec2 <<Call mat2__index_const <<Var "x"; UInt 1>>; Call mat2__index_const <<Var "y"; UInt 1>>>>>>)).
(** src/matrix.cpp 12-15 *)
Definition c_matrixCompMult_mat3_mat3 : fundef fn := Fun ["x"; "y"] [Tcls Cmat3; Tcls Cmat3] (RVal (Tcls Cmat3)) [] (
  Return (Call mat3__vec3_vec3_vec3 <<Call op_mul_vec3_vec3 <<Call mat3__index_const <<Var "x"; UInt 0>>; Call mat3__index_const <<Var "y"; UInt 0>>>>;
    Call op_mul_vec3_vec3 <<Call mat3__index_const <<Var "x"; UInt 1>>; Call mat3__index_const <<Var "y"; UInt 1>>>>; Call op_mul_vec3_vec3 <<Call
    mat3__index_const <<Var "x"; UInt 2>>; Call mat3__index_const <<Var "y"; UInt 2>>>>>>)).
(** src/matrix.cpp 17-20 *)
Definition c_matrixCompMult_mat4_mat4 : fundef fn := Fun ["x"; "y"] [Tcls Cmat4; Tcls Cmat4] (RVal (Tcls Cmat4)) [] (
  Return (Call mat4__vec4_vec4_vec4_vec4 <<Call op_mul_vec4_vec4 <<Call mat4__index_const <<Var "x"; UInt 0>>; Call mat4__index_const <<Var "y"; UInt
    0>>>>; Call op_mul_vec4_vec4 <<Call mat4__index_const <<Var "x"; UInt 1>>; Call mat4__index_const <<Var "y"; UInt 1>>>>; Call op_mul_vec4_vec4
    <<Call mat4__index_const <<Var "x"; UInt 2>>; Call mat4__index_const <<Var "y"; UInt 2>>>>; Call op_mul_vec4_vec4 <<Call mat4__index_const <<Var
    "x"; UInt 3>>; Call mat4__index_const <<Var "y"; UInt 3>>>>>>)).
(** src/matrix.cpp 22-32 *)
Definition c_transpose_mat2 : fundef fn := Fun ["m"] [Tcls Cmat2] (RVal (Tcls Cmat2)) [] (
  Decl "result" (Some (Call mat2__no_init_t ENil));;
  Assign (LIdx vec2__index (LIdx mat2__index (LVar "result") (UInt 0)) (UInt 0)) (Read (LIdx vec2__index (LTmp (Call mat2__index_const <<Var "m"; UInt
    0>>)) (UInt 0)));;
  Assign (LIdx vec2__index (LIdx mat2__index (LVar "result") (UInt 0)) (UInt 1)) (Read (LIdx vec2__index (LTmp (Call mat2__index_const <<Var "m"; UInt
    1>>)) (UInt 0)));;
  Assign (LIdx vec2__index (LIdx mat2__index (LVar "result") (UInt 1)) (UInt 0)) (Read (LIdx vec2__index (LTmp (Call mat2__index_const <<Var "m"; UInt
    0>>)) (UInt 1)));;
  Assign (LIdx vec2__index (LIdx mat2__index (LVar "result") (UInt 1)) (UInt 1)) (Read (LIdx vec2__index (LTmp (Call mat2__index_const <<Var "m"; UInt
    1>>)) (UInt 1)));;
  Return (Var "result")).
(** src/matrix.cpp 34-51 *)
Definition c_transpose_mat3 : fundef fn := Fun ["m"] [Tcls Cmat3] (RVal (Tcls Cmat3)) [] (
  Decl "result" (Some (Call mat3__no_init_t ENil));;
  Assign (LIdx vec3__index (LIdx mat3__index (LVar "result") (UInt 0)) (UInt 0)) (Call vec3__index_const <<Call mat3__index_const <<Var "m"; UInt 0>>;
    UInt 0>>);;
  Assign (LIdx vec3__index (LIdx mat3__index (LVar "result") (UInt 0)) (UInt 1)) (Call vec3__index_const <<Call mat3__index_const <<Var "m"; UInt 1>>;
    UInt 0>>);;
  Assign (LIdx vec3__index (LIdx mat3__index (LVar "result") (UInt 0)) (UInt 2)) (Call vec3__index_const <<Call mat3__index_const <<Var "m"; UInt 2>>;
    UInt 0>>);;
  Assign (LIdx vec3__index (LIdx mat3__index (LVar "result") (UInt 1)) (UInt 0)) (Call vec3__index_const <<Call mat3__index_const <<Var "m"; UInt 0>>;
    UInt 1>>);;
  Assign (LIdx vec3__index (LIdx mat3__index (LVar "result") (UInt 1)) (UInt 1)) (Call vec3__index_const <<Call mat3__index_const <<Var "m"; UInt 1>>;
    UInt 1>>);;
  Assign (LIdx vec3__index (LIdx mat3__index (LVar "result") (UInt 1)) (UInt 2)) (Call vec3__index_const <<Call mat3__index_const <<Var "m"; UInt 2>>;
    UInt 1>>);;
  Assign (LIdx vec3__index (LIdx mat3__index (LVar "result") (UInt 2)) (UInt 0)) (Call vec3__index_const <<Call mat3__index_const <<Var "m"; UInt 0>>;
    UInt 2>>);;
  Assign (LIdx vec3__index (LIdx mat3__index (LVar "result") (UInt 2)) (UInt 1)) (Call vec3__index_const <<Call mat3__index_const <<Var "m"; UInt 1>>;
    UInt 2>>);;
  Assign (LIdx vec3__index (LIdx mat3__index (LVar "result") (UInt 2)) (UInt 2)) (Call vec3__index_const <<Call mat3__index_const <<Var "m"; UInt 2>>;
    UInt 2>>);;
  Return (Var "result")).
(** src/matrix.cpp 53-78 *)
Definition c_transpose_mat4 : fundef fn := Fun ["m"] [Tcls Cmat4] (RVal (Tcls Cmat4)) [] (
  Decl "result" (Some (Call mat4__no_init_t ENil));;
  Assign (LIdx vec4__index (LIdx mat4__index (LVar "result") (UInt 0)) (UInt 0)) (Call vec4__index_const <<Call mat4__index_const <<Var "m"; UInt 0>>;
    UInt 0>>);;
  Assign (LIdx vec4__index (LIdx mat4__index (LVar "result") (UInt 0)) (UInt 1)) (Call vec4__index_const <<Call mat4__index_const <<Var "m"; UInt 1>>;
    UInt 0>>);;
  Assign (LIdx vec4__index (LIdx mat4__index (LVar "result") (UInt 0)) (UInt 2)) (Call vec4__index_const <<Call mat4__index_const <<Var "m"; UInt 2>>;
    UInt 0>>);;
  Assign (LIdx vec4__index (LIdx mat4__index (LVar "result") (UInt 0)) (UInt 3)) (Call vec4__index_const <<Call mat4__index_const <<Var "m"; UInt 3>>;
    UInt 0>>);;
  Assign (LIdx vec4__index (LIdx mat4__index (LVar "result") (UInt 1)) (UInt 0)) (Call vec4__index_const <<Call mat4__index_const <<Var "m"; UInt 0>>;
    UInt 1>>);;
  Assign (LIdx vec4__index (LIdx mat4__index (LVar "result") (UInt 1)) (UInt 1)) (Call vec4__index_const <<Call mat4__index_const <<Var "m"; UInt 1>>;
    UInt 1>>);;
  Assign (LIdx vec4__index (LIdx mat4__index (LVar "result") (UInt 1)) (UInt 2)) (Call vec4__index_const <<Call mat4__index_const <<Var "m"; UInt 2>>;
    UInt 1>>);;
  Assign (LIdx vec4__index (LIdx mat4__index (LVar "result") (UInt 1)) (UInt 3)) (Call vec4__index_const <<Call mat4__index_const <<Var "m"; UInt 3>>;
    UInt 1>>);;
  Assign (LIdx vec4__index (LIdx mat4__index (LVar "result") (UInt 2)) (UInt 0)) (Call vec4__index_const <<Call mat4__index_const <<Var "m"; UInt 0>>;
    UInt 2>>);;
  Assign (LIdx vec4__index (LIdx mat4__index (LVar "result") (UInt 2)) (UInt 1)) (Call vec4__index_const <<Call mat4__index_const <<Var "m"; UInt 1>>;
    UInt 2>>);;
  Assign (LIdx vec4__index (LIdx mat4__index (LVar "result") (UInt 2)) (UInt 2)) (Call vec4__index_const <<Call mat4__index_const <<Var "m"; UInt 2>>;
    UInt 2>>);;
  Assign (LIdx vec4__index (LIdx mat4__index (LVar "result") (UInt 2)) (UInt 3)) (Call vec4__index_const <<Call mat4__index_const <<Var "m"; UInt 3>>;
    UInt 2>>);;
  Assign (LIdx vec4__index (LIdx mat4__index (LVar "result") (UInt 3)) (UInt 0)) (Call vec4__index_const <<Call mat4__index_const <<Var "m"; UInt 0>>;
    UInt 3>>);;
  Assign (LIdx vec4__index (LIdx mat4__index (LVar "result") (UInt 3)) (UInt 1)) (Call vec4__index_const <<Call mat4__index_const <<Var "m"; UInt 1>>;
    UInt 3>>);;
  Assign (LIdx vec4__index (LIdx mat4__index (LVar "result") (UInt 3)) (UInt 2)) (Call vec4__index_const <<Call mat4__index_const <<Var "m"; UInt 2>>;
    UInt 3>>);;
  Assign (LIdx vec4__index (LIdx mat4__index (LVar "result") (UInt 3)) (UInt 3)) (Call vec4__index_const <<Call mat4__index_const <<Var "m"; UInt 3>>;
    UInt 3>>);;
  Return (Var "result")).
(** src/matrix.cpp 80-83 *)
Definition c_determinant_mat2 : fundef fn := Fun ["m"] [Tcls Cmat2] (RVal Tfloat) [] (
  Return (Bin Osub (Bin Omul (Read (LIdx vec2__index (LTmp (Call mat2__index_const <<Var "m"; UInt 0>>)) (UInt 0))) (Read (LIdx vec2__index (LTmp (Call
    mat2__index_const <<Var "m"; UInt 1>>)) (UInt 1)))) (Bin Omul (Read (LIdx vec2__index (LTmp (Call mat2__index_const <<Var "m"; UInt 1>>)) (UInt
    0))) (Read (LIdx vec2__index (LTmp (Call mat2__index_const <<Var "m"; UInt 0>>)) (UInt 1)))))).
(** src/matrix.cpp 85-91 *)
Definition c_determinant_mat3 : fundef fn := Fun ["m"] [Tcls Cmat3] (RVal Tfloat) [] (
  Return (Bin Oadd (Bin Osub (Bin Omul (Un Oplus (Call vec3__index_const <<Call mat3__index_const <<Var "m"; UInt 0>>; UInt 0>>)) (Bin Osub (Bin Omul
    (Call vec3__index_const <<Call mat3__index_const <<Var "m"; UInt 1>>; UInt 1>>) (Call vec3__index_const <<Call mat3__index_const <<Var "m"; UInt
    2>>; UInt 2>>)) (Bin Omul (Call vec3__index_const <<Call mat3__index_const <<Var "m"; UInt 2>>; UInt 1>>) (Call vec3__index_const <<Call
    mat3__index_const <<Var "m"; UInt 1>>; UInt 2>>)))) (Bin Omul (Call vec3__index_const <<Call mat3__index_const <<Var "m"; UInt 1>>; UInt 0>>) (Bin
    Osub (Bin Omul (Call vec3__index_const <<Call mat3__index_const <<Var "m"; UInt 0>>; UInt 1>>) (Call vec3__index_const <<Call mat3__index_const
    <<Var "m"; UInt 2>>; UInt 2>>)) (Bin Omul (Call vec3__index_const <<Call mat3__index_const <<Var "m"; UInt 2>>; UInt 1>>) (Call vec3__index_const
    <<Call mat3__index_const <<Var "m"; UInt 0>>; UInt 2>>))))) (Bin Omul (Call vec3__index_const <<Call mat3__index_const <<Var "m"; UInt 2>>; UInt
    0>>) (Bin Osub (Bin Omul (Call vec3__index_const <<Call mat3__index_const <<Var "m"; UInt 0>>; UInt 1>>) (Call vec3__index_const <<Call
    mat3__index_const <<Var "m"; UInt 1>>; UInt 2>>)) (Bin Omul (Call vec3__index_const <<Call mat3__index_const <<Var "m"; UInt 1>>; UInt 1>>) (Call
    vec3__index_const <<Call mat3__index_const <<Var "m"; UInt 0>>; UInt 2>>)))))).
(** src/matrix.cpp 93-111 *)
Definition c_determinant_mat4 : fundef fn := Fun ["m"] [Tcls Cmat4] (RVal Tfloat) [] (
  Decl "SubFactor00" (Some (Bin Osub (Bin Omul (Call vec4__index_const <<Call mat4__index_const <<Var "m"; UInt 2>>; UInt 2>>) (Call vec4__index_const
    <<Call mat4__index_const <<Var "m"; UInt 3>>; UInt 3>>)) (Bin Omul (Call vec4__index_const <<Call mat4__index_const <<Var "m"; UInt 3>>; UInt 2>>)
    (Call vec4__index_const <<Call mat4__index_const <<Var "m"; UInt 2>>; UInt 3>>))));;
  Decl "SubFactor01" (Some (Bin Osub (Bin Omul (Call vec4__index_const <<Call mat4__index_const <<Var "m"; UInt 2>>; UInt 1>>) (Call vec4__index_const
    <<Call mat4__index_const <<Var "m"; UInt 3>>; UInt 3>>)) (Bin Omul (Call vec4__index_const <<Call mat4__index_const <<Var "m"; UInt 3>>; UInt 1>>)
    (Call vec4__index_const <<Call mat4__index_const <<Var "m"; UInt 2>>; UInt 3>>))));;
  Decl "SubFactor02" (Some (Bin Osub (Bin Omul (Call vec4__index_const <<Call mat4__index_const <<Var "m"; UInt 2>>; UInt 1>>) (Call vec4__index_const
    <<Call mat4__index_const <<Var "m"; UInt 3>>; UInt 2>>)) (Bin Omul (Call vec4__index_const <<Call mat4__index_const <<Var "m"; UInt 3>>; UInt 1>>)
    (Call vec4__index_const <<Call mat4__index_const <<Var "m"; UInt 2>>; UInt 2>>))));;
  Decl "SubFactor03" (Some (Bin Osub (Bin Omul (Call vec4__index_const <<Call mat4__index_const <<Var "m"; UInt 2>>; UInt 0>>) (Call vec4__index_const
    <<Call mat4__index_const <<Var "m"; UInt 3>>; UInt 3>>)) (Bin Omul (Call vec4__index_const <<Call mat4__index_const <<Var "m"; UInt 3>>; UInt 0>>)
    (Call vec4__index_const <<Call mat4__index_const <<Var "m"; UInt 2>>; UInt 3>>))));;
  Decl "SubFactor04" (Some (Bin Osub (Bin Omul (Call vec4__index_const <<Call mat4__index_const <<Var "m"; UInt 2>>; UInt 0>>) (Call vec4__index_const
    <<Call mat4__index_const <<Var "m"; UInt 3>>; UInt 2>>)) (Bin Omul (Call vec4__index_const <<Call mat4__index_const <<Var "m"; UInt 3>>; UInt 0>>)
    (Call vec4__index_const <<Call mat4__index_const <<Var "m"; UInt 2>>; UInt 2>>))));;
  Decl "SubFactor05" (Some (Bin Osub (Bin Omul (Call vec4__index_const <<Call mat4__index_const <<Var "m"; UInt 2>>; UInt 0>>) (Call vec4__index_const
    <<Call mat4__index_const <<Var "m"; UInt 3>>; UInt 1>>)) (Bin Omul (Call vec4__index_const <<Call mat4__index_const <<Var "m"; UInt 3>>; UInt 0>>)
    (Call vec4__index_const <<Call mat4__index_const <<Var "m"; UInt 2>>; UInt 1>>))));;
  Decl "DetCof" (Some (Call vec4__float_float_float_float <<Un Oplus (Bin Oadd (Bin Osub (Bin Omul (Call vec4__index_const <<Call mat4__index_const
    <<Var "m"; UInt 1>>; UInt 1>>) (Var "SubFactor00")) (Bin Omul (Call vec4__index_const <<Call mat4__index_const <<Var "m"; UInt 1>>; UInt 2>>) (Var
    "SubFactor01"))) (Bin Omul (Call vec4__index_const <<Call mat4__index_const <<Var "m"; UInt 1>>; UInt 3>>) (Var "SubFactor02"))); Un Oneg (Bin
    Oadd (Bin Osub (Bin Omul (Call vec4__index_const <<Call mat4__index_const <<Var "m"; UInt 1>>; UInt 0>>) (Var "SubFactor00")) (Bin Omul (Call
    vec4__index_const <<Call mat4__index_const <<Var "m"; UInt 1>>; UInt 2>>) (Var "SubFactor03"))) (Bin Omul (Call vec4__index_const <<Call
    mat4__index_const <<Var "m"; UInt 1>>; UInt 3>>) (Var "SubFactor04"))); Un Oplus (Bin Oadd (Bin Osub (Bin Omul (Call vec4__index_const <<Call
    mat4__index_const <<Var "m"; UInt 1>>; UInt 0>>) (Var "SubFactor01")) (Bin Omul (Call vec4__index_const <<Call mat4__index_const <<Var "m"; UInt
    1>>; UInt 1>>) (Var "SubFactor03"))) (Bin Omul (Call vec4__index_const <<Call mat4__index_const <<Var "m"; UInt 1>>; UInt 3>>) (Var
    "SubFactor05"))); Un Oneg (Bin Oadd (Bin Osub (Bin Omul (Call vec4__index_const <<Call mat4__index_const <<Var "m"; UInt 1>>; UInt 0>>) (Var
    "SubFactor02")) (Bin Omul (Call vec4__index_const <<Call mat4__index_const <<Var "m"; UInt 1>>; UInt 1>>) (Var "SubFactor04"))) (Bin Omul (Call
    vec4__index_const <<Call mat4__index_const <<Var "m"; UInt 1>>; UInt 2>>) (Var "SubFactor05")))>>));;
  Return (Bin Oadd (Bin Oadd (Bin Oadd (Bin Omul (Call vec4__index_const <<Call mat4__index_const <<Var "m"; UInt 0>>; UInt 0>>) (Read (LIdx vec4__index
    (LVar "DetCof") (UInt 0)))) (Bin Omul (Call vec4__index_const <<Call mat4__index_const <<Var "m"; UInt 0>>; UInt 1>>) (Read (LIdx vec4__index
    (LVar "DetCof") (UInt 1))))) (Bin Omul (Call vec4__index_const <<Call mat4__index_const <<Var "m"; UInt 0>>; UInt 2>>) (Read (LIdx vec4__index
    (LVar "DetCof") (UInt 2))))) (Bin Omul (Call vec4__index_const <<Call mat4__index_const <<Var "m"; UInt 0>>; UInt 3>>) (Read (LIdx vec4__index
    (LVar "DetCof") (UInt 3)))))).
(** src/matrix.cpp 113-125 *)
Definition c_inverse_mat2 : fundef fn := Fun ["m"] [Tcls Cmat2] (RVal (Tcls Cmat2)) [] (
  Decl "OneOverDeterminant" (Some (Bin Odiv (Lit 1 0) (Bin Osub (Bin Omul (Un Oplus (Read (LIdx vec2__index (LTmp (Call mat2__index_const <<Var "m";
    UInt 0>>)) (UInt 0)))) (Read (LIdx vec2__index (LTmp (Call mat2__index_const <<Var "m"; UInt 1>>)) (UInt 1)))) (Bin Omul (Read (LIdx vec2__index
    (LTmp (Call mat2__index_const <<Var "m"; UInt 1>>)) (UInt 0))) (Read (LIdx vec2__index (LTmp (Call mat2__index_const <<Var "m"; UInt 0>>)) (UInt
    1)))))));;
  Decl "inverse" (Some (Call mat2__float_float_float_float <<Bin Omul (Un Oplus (Read (LIdx vec2__index (LTmp (Call mat2__index_const <<Var "m"; UInt
    1>>)) (UInt 1)))) (Var "OneOverDeterminant"); Bin Omul (Un Oneg (Read (LIdx vec2__index (LTmp (Call mat2__index_const <<Var "m"; UInt 0>>)) (UInt
    1)))) (Var "OneOverDeterminant"); Bin Omul (Un Oneg (Read (LIdx vec2__index (LTmp (Call mat2__index_const <<Var "m"; UInt 1>>)) (UInt 0)))) (Var
    "OneOverDeterminant"); Bin Omul (Un Oplus (Read (LIdx vec2__index (LTmp (Call mat2__index_const <<Var "m"; UInt 0>>)) (UInt 0)))) (Var
    "OneOverDeterminant")>>));;
  Return (Var "inverse")).
(** src/matrix.cpp 127-146 *)
Definition c_inverse_mat3 : fundef fn := Fun ["m"] [Tcls Cmat3] (RVal (Tcls Cmat3)) [] (
  Decl "oneOverDeterminant" (Some (Bin Odiv (Lit 1 0) (Bin Oadd (Bin Osub (Bin Omul (Un Oplus (Call vec3__index_const <<Call mat3__index_const <<Var
    "m"; UInt 0>>; UInt 0>>)) (Bin Osub (Bin Omul (Call vec3__index_const <<Call mat3__index_const <<Var "m"; UInt 1>>; UInt 1>>) (Call
    vec3__index_const <<Call mat3__index_const <<Var "m"; UInt 2>>; UInt 2>>)) (Bin Omul (Call vec3__index_const <<Call mat3__index_const <<Var "m";
    UInt 2>>; UInt 1>>) (Call vec3__index_const <<Call mat3__index_const <<Var "m"; UInt 1>>; UInt 2>>)))) (Bin Omul (Call vec3__index_const <<Call
    mat3__index_const <<Var "m"; UInt 1>>; UInt 0>>) (Bin Osub (Bin Omul (Call vec3__index_const <<Call mat3__index_const <<Var "m"; UInt 0>>; UInt
    1>>) (Call vec3__index_const <<Call mat3__index_const <<Var "m"; UInt 2>>; UInt 2>>)) (Bin Omul (Call vec3__index_const <<Call mat3__index_const
    <<Var "m"; UInt 2>>; UInt 1>>) (Call vec3__index_const <<Call mat3__index_const <<Var "m"; UInt 0>>; UInt 2>>))))) (Bin Omul (Call
    vec3__index_const <<Call mat3__index_const <<Var "m"; UInt 2>>; UInt 0>>) (Bin Osub (Bin Omul (Call vec3__index_const <<Call mat3__index_const
    <<Var "m"; UInt 0>>; UInt 1>>) (Call vec3__index_const <<Call mat3__index_const <<Var "m"; UInt 1>>; UInt 2>>)) (Bin Omul (Call vec3__index_const
    <<Call mat3__index_const <<Var "m"; UInt 1>>; UInt 1>>) (Call vec3__index_const <<Call mat3__index_const <<Var "m"; UInt 0>>; UInt 2>>)))))));;
  Decl "inverse" (Some (Call mat3__no_init_t ENil));;
  Assign (LIdx vec3__index (LIdx mat3__index (LVar "inverse") (UInt 0)) (UInt 0)) (Bin Omul (Un Oplus (Bin Osub (Bin Omul (Call vec3__index_const <<Call
    mat3__index_const <<Var "m"; UInt 1>>; UInt 1>>) (Call vec3__index_const <<Call mat3__index_const <<Var "m"; UInt 2>>; UInt 2>>)) (Bin Omul (Call
    vec3__index_const <<Call mat3__index_const <<Var "m"; UInt 2>>; UInt 1>>) (Call vec3__index_const <<Call mat3__index_const <<Var "m"; UInt 1>>;
    UInt 2>>)))) (Var "oneOverDeterminant"));;
  Assign (LIdx vec3__index (LIdx mat3__index (LVar "inverse") (UInt 1)) (UInt 0)) (Bin Omul (Un Oneg (Bin Osub (Bin Omul (Call vec3__index_const <<Call
    mat3__index_const <<Var "m"; UInt 1>>; UInt 0>>) (Call vec3__index_const <<Call mat3__index_const <<Var "m"; UInt 2>>; UInt 2>>)) (Bin Omul (Call
    vec3__index_const <<Call mat3__index_const <<Var "m"; UInt 2>>; UInt 0>>) (Call vec3__index_const <<Call mat3__index_const <<Var "m"; UInt 1>>;
    UInt 2>>)))) (Var "oneOverDeterminant"));;
  Assign (LIdx vec3__index (LIdx mat3__index (LVar "inverse") (UInt 2)) (UInt 0)) (Bin Omul (Un Oplus (Bin Osub (Bin Omul (Call vec3__index_const <<Call
    mat3__index_const <<Var "m"; UInt 1>>; UInt 0>>) (Call vec3__index_const <<Call mat3__index_const <<Var "m"; UInt 2>>; UInt 1>>)) (Bin Omul (Call
    vec3__index_const <<Call mat3__index_const <<Var "m"; UInt 2>>; UInt 0>>) (Call vec3__index_const <<Call mat3__index_const <<Var "m"; UInt 1>>;
    UInt 1>>)))) (Var "oneOverDeterminant"));;
  Assign (LIdx vec3__index (LIdx mat3__index (LVar "inverse") (UInt 0)) (UInt 1)) (Bin Omul (Un Oneg (Bin Osub (Bin Omul (Call vec3__index_const <<Call
    mat3__index_const <<Var "m"; UInt 0>>; UInt 1>>) (Call vec3__index_const <<Call mat3__index_const <<Var "m"; UInt 2>>; UInt 2>>)) (Bin Omul (Call
    vec3__index_const <<Call mat3__index_const <<Var "m"; UInt 2>>; UInt 1>>) (Call vec3__index_const <<Call mat3__index_const <<Var "m"; UInt 0>>;
    UInt 2>>)))) (Var "oneOverDeterminant"));;
  Assign (LIdx vec3__index (LIdx mat3__index (LVar "inverse") (UInt 1)) (UInt 1)) (Bin Omul (Un Oplus (Bin Osub (Bin Omul (Call vec3__index_const <<Call
    mat3__index_const <<Var "m"; UInt 0>>; UInt 0>>) (Call vec3__index_const <<Call mat3__index_const <<Var "m"; UInt 2>>; UInt 2>>)) (Bin Omul (Call
    vec3__index_const <<Call mat3__index_const <<Var "m"; UInt 2>>; UInt 0>>) (Call vec3__index_const <<Call mat3__index_const <<Var "m"; UInt 0>>;
    UInt 2>>)))) (Var "oneOverDeterminant"));;
  Assign (LIdx vec3__index (LIdx mat3__index (LVar "inverse") (UInt 2)) (UInt 1)) (Bin Omul (Un Oneg (Bin Osub (Bin Omul (Call vec3__index_const <<Call
    mat3__index_const <<Var "m"; UInt 0>>; UInt 0>>) (Call vec3__index_const <<Call mat3__index_const <<Var "m"; UInt 2>>; UInt 1>>)) (Bin Omul (Call
    vec3__index_const <<Call mat3__index_const <<Var "m"; UInt 2>>; UInt 0>>) (Call vec3__index_const <<Call mat3__index_const <<Var "m"; UInt 0>>;
    UInt 1>>)))) (Var "oneOverDeterminant"));;
  Assign (LIdx vec3__index (LIdx mat3__index (LVar "inverse") (UInt 0)) (UInt 2)) (Bin Omul (Un Oplus (Bin Osub (Bin Omul (Call vec3__index_const <<Call
    mat3__index_const <<Var "m"; UInt 0>>; UInt 1>>) (Call vec3__index_const <<Call mat3__index_const <<Var "m"; UInt 1>>; UInt 2>>)) (Bin Omul (Call
    vec3__index_const <<Call mat3__index_const <<Var "m"; UInt 1>>; UInt 1>>) (Call vec3__index_const <<Call mat3__index_const <<Var "m"; UInt 0>>;
    UInt 2>>)))) (Var "oneOverDeterminant"));;
  Assign (LIdx vec3__index (LIdx mat3__index (LVar "inverse") (UInt 1)) (UInt 2)) (Bin Omul (Un Oneg (Bin Osub (Bin Omul (Call vec3__index_const <<Call
    mat3__index_const <<Var "m"; UInt 0>>; UInt 0>>) (Call vec3__index_const <<Call mat3__index_const <<Var "m"; UInt 1>>; UInt 2>>)) (Bin Omul (Call
    vec3__index_const <<Call mat3__index_const <<Var "m"; UInt 1>>; UInt 0>>) (Call vec3__index_const <<Call mat3__index_const <<Var "m"; UInt 0>>;
    UInt 2>>)))) (Var "oneOverDeterminant"));;
  Assign (LIdx vec3__index (LIdx mat3__index (LVar "inverse") (UInt 2)) (UInt 2)) (Bin Omul (Un Oplus (Bin Osub (Bin Omul (Call vec3__index_const <<Call
    mat3__index_const <<Var "m"; UInt 0>>; UInt 0>>) (Call vec3__index_const <<Call mat3__index_const <<Var "m"; UInt 1>>; UInt 1>>)) (Bin Omul (Call
    vec3__index_const <<Call mat3__index_const <<Var "m"; UInt 1>>; UInt 0>>) (Call vec3__index_const <<Call mat3__index_const <<Var "m"; UInt 0>>;
    UInt 1>>)))) (Var "oneOverDeterminant"));;
  Return (Var "inverse")).
(** src/matrix.cpp 148-203 *)
Definition c_inverse_mat4 : fundef fn := Fun ["m"] [Tcls Cmat4] (RVal (Tcls Cmat4)) [] (
  Decl "Coef00" (Some (Bin Osub (Bin Omul (Call vec4__index_const <<Call mat4__index_const <<Var "m"; UInt 2>>; UInt 2>>) (Call vec4__index_const <<Call
    mat4__index_const <<Var "m"; UInt 3>>; UInt 3>>)) (Bin Omul (Call vec4__index_const <<Call mat4__index_const <<Var "m"; UInt 3>>; UInt 2>>) (Call
    vec4__index_const <<Call mat4__index_const <<Var "m"; UInt 2>>; UInt 3>>))));;
  Decl "Coef02" (Some (Bin Osub (Bin Omul (Call vec4__index_const <<Call mat4__index_const <<Var "m"; UInt 1>>; UInt 2>>) (Call vec4__index_const <<Call
    mat4__index_const <<Var "m"; UInt 3>>; UInt 3>>)) (Bin Omul (Call vec4__index_const <<Call mat4__index_const <<Var "m"; UInt 3>>; UInt 2>>) (Call
    vec4__index_const <<Call mat4__index_const <<Var "m"; UInt 1>>; UInt 3>>))));;
  Decl "Coef03" (Some (Bin Osub (Bin Omul (Call vec4__index_const <<Call mat4__index_const <<Var "m"; UInt 1>>; UInt 2>>) (Call vec4__index_const <<Call
    mat4__index_const <<Var "m"; UInt 2>>; UInt 3>>)) (Bin Omul (Call vec4__index_const <<Call mat4__index_const <<Var "m"; UInt 2>>; UInt 2>>) (Call
    vec4__index_const <<Call mat4__index_const <<Var "m"; UInt 1>>; UInt 3>>))));;
  Decl "Coef04" (Some (Bin Osub (Bin Omul (Call vec4__index_const <<Call mat4__index_const <<Var "m"; UInt 2>>; UInt 1>>) (Call vec4__index_const <<Call
    mat4__index_const <<Var "m"; UInt 3>>; UInt 3>>)) (Bin Omul (Call vec4__index_const <<Call mat4__index_const <<Var "m"; UInt 3>>; UInt 1>>) (Call
    vec4__index_const <<Call mat4__index_const <<Var "m"; UInt 2>>; UInt 3>>))));;
  Decl "Coef06" (Some (Bin Osub (Bin Omul (Call vec4__index_const <<Call mat4__index_const <<Var "m"; UInt 1>>; UInt 1>>) (Call vec4__index_const <<Call
    mat4__index_const <<Var "m"; UInt 3>>; UInt 3>>)) (Bin Omul (Call vec4__index_const <<Call mat4__index_const <<Var "m"; UInt 3>>; UInt 1>>) (Call
    vec4__index_const <<Call mat4__index_const <<Var "m"; UInt 1>>; UInt 3>>))));;
  Decl "Coef07" (Some (Bin Osub (Bin Omul (Call vec4__index_const <<Call mat4__index_const <<Var "m"; UInt 1>>; UInt 1>>) (Call vec4__index_const <<Call
    mat4__index_const <<Var "m"; UInt 2>>; UInt 3>>)) (Bin Omul (Call vec4__index_const <<Call mat4__index_const <<Var "m"; UInt 2>>; UInt 1>>) (Call
    vec4__index_const <<Call mat4__index_const <<Var "m"; UInt 1>>; UInt 3>>))));;
  Decl "Coef08" (Some (Bin Osub (Bin Omul (Call vec4__index_const <<Call mat4__index_const <<Var "m"; UInt 2>>; UInt 1>>) (Call vec4__index_const <<Call
    mat4__index_const <<Var "m"; UInt 3>>; UInt 2>>)) (Bin Omul (Call vec4__index_const <<Call mat4__index_const <<Var "m"; UInt 3>>; UInt 1>>) (Call
    vec4__index_const <<Call mat4__index_const <<Var "m"; UInt 2>>; UInt 2>>))));;
  Decl "Coef10" (Some (Bin Osub (Bin Omul (Call vec4__index_const <<Call mat4__index_const <<Var "m"; UInt 1>>; UInt 1>>) (Call vec4__index_const <<Call
    mat4__index_const <<Var "m"; UInt 3>>; UInt 2>>)) (Bin Omul (Call vec4__index_const <<Call mat4__index_const <<Var "m"; UInt 3>>; UInt 1>>) (Call
    vec4__index_const <<Call mat4__index_const <<Var "m"; UInt 1>>; UInt 2>>))));;
  Decl "Coef11" (Some (Bin Osub (Bin Omul (Call vec4__index_const <<Call mat4__index_const <<Var "m"; UInt 1>>; UInt 1>>) (Call vec4__index_const <<Call
    mat4__index_const <<Var "m"; UInt 2>>; UInt 2>>)) (Bin Omul (Call vec4__index_const <<Call mat4__index_const <<Var "m"; UInt 2>>; UInt 1>>) (Call
    vec4__index_const <<Call mat4__index_const <<Var "m"; UInt 1>>; UInt 2>>))));;
  Decl "Coef12" (Some (Bin Osub (Bin Omul (Call vec4__index_const <<Call mat4__index_const <<Var "m"; UInt 2>>; UInt 0>>) (Call vec4__index_const <<Call
    mat4__index_const <<Var "m"; UInt 3>>; UInt 3>>)) (Bin Omul (Call vec4__index_const <<Call mat4__index_const <<Var "m"; UInt 3>>; UInt 0>>) (Call
    vec4__index_const <<Call mat4__index_const <<Var "m"; UInt 2>>; UInt 3>>))));;
  Decl "Coef14" (Some (Bin Osub (Bin Omul (Call vec4__index_const <<Call mat4__index_const <<Var "m"; UInt 1>>; UInt 0>>) (Call vec4__index_const <<Call
    mat4__index_const <<Var "m"; UInt 3>>; UInt 3>>)) (Bin Omul (Call vec4__index_const <<Call mat4__index_const <<Var "m"; UInt 3>>; UInt 0>>) (Call
    vec4__index_const <<Call mat4__index_const <<Var "m"; UInt 1>>; UInt 3>>))));;
  Decl "Coef15" (Some (Bin Osub (Bin Omul (Call vec4__index_const <<Call mat4__index_const <<Var "m"; UInt 1>>; UInt 0>>) (Call vec4__index_const <<Call
    mat4__index_const <<Var "m"; UInt 2>>; UInt 3>>)) (Bin Omul (Call vec4__index_const <<Call mat4__index_const <<Var "m"; UInt 2>>; UInt 0>>) (Call
    vec4__index_const <<Call mat4__index_const <<Var "m"; UInt 1>>; UInt 3>>))));;
  Decl "Coef16" (Some (Bin Osub (Bin Omul (Call vec4__index_const <<Call mat4__index_const <<Var "m"; UInt 2>>; UInt 0>>) (Call vec4__index_const <<Call
    mat4__index_const <<Var "m"; UInt 3>>; UInt 2>>)) (Bin Omul (Call vec4__index_const <<Call mat4__index_const <<Var "m"; UInt 3>>; UInt 0>>) (Call
    vec4__index_const <<Call mat4__index_const <<Var "m"; UInt 2>>; UInt 2>>))));;
  Decl "Coef18" (Some (Bin Osub (Bin Omul (Call vec4__index_const <<Call mat4__index_const <<Var "m"; UInt 1>>; UInt 0>>) (Call vec4__index_const <<Call
    mat4__index_const <<Var "m"; UInt 3>>; UInt 2>>)) (Bin Omul (Call vec4__index_const <<Call mat4__index_const <<Var "m"; UInt 3>>; UInt 0>>) (Call
    vec4__index_const <<Call mat4__index_const <<Var "m"; UInt 1>>; UInt 2>>))));;
  Decl "Coef19" (Some (Bin Osub (Bin Omul (Call vec4__index_const <<Call mat4__index_const <<Var "m"; UInt 1>>; UInt 0>>) (Call vec4__index_const <<Call
    mat4__index_const <<Var "m"; UInt 2>>; UInt 2>>)) (Bin Omul (Call vec4__index_const <<Call mat4__index_const <<Var "m"; UInt 2>>; UInt 0>>) (Call
    vec4__index_const <<Call mat4__index_const <<Var "m"; UInt 1>>; UInt 2>>))));;
  Decl "Coef20" (Some (Bin Osub (Bin Omul (Call vec4__index_const <<Call mat4__index_const <<Var "m"; UInt 2>>; UInt 0>>) (Call vec4__index_const <<Call
    mat4__index_const <<Var "m"; UInt 3>>; UInt 1>>)) (Bin Omul (Call vec4__index_const <<Call mat4__index_const <<Var "m"; UInt 3>>; UInt 0>>) (Call
    vec4__index_const <<Call mat4__index_const <<Var "m"; UInt 2>>; UInt 1>>))));;
  Decl "Coef22" (Some (Bin Osub (Bin Omul (Call vec4__index_const <<Call mat4__index_const <<Var "m"; UInt 1>>; UInt 0>>) (Call vec4__index_const <<Call
    mat4__index_const <<Var "m"; UInt 3>>; UInt 1>>)) (Bin Omul (Call vec4__index_const <<Call mat4__index_const <<Var "m"; UInt 3>>; UInt 0>>) (Call
    vec4__index_const <<Call mat4__index_const <<Var "m"; UInt 1>>; UInt 1>>))));;
  Decl "Coef23" (Some (Bin Osub (Bin Omul (Call vec4__index_const <<Call mat4__index_const <<Var "m"; UInt 1>>; UInt 0>>) (Call vec4__index_const <<Call
    mat4__index_const <<Var "m"; UInt 2>>; UInt 1>>)) (Bin Omul (Call vec4__index_const <<Call mat4__index_const <<Var "m"; UInt 2>>; UInt 0>>) (Call
    vec4__index_const <<Call mat4__index_const <<Var "m"; UInt 1>>; UInt 1>>))));;
  Decl "Fac0" (Some (Call vec4__float_float_float_float <<Var "Coef00"; Var "Coef00"; Var "Coef02"; Var "Coef03">>));;
  Decl "Fac1" (Some (Call vec4__float_float_float_float <<Var "Coef04"; Var "Coef04"; Var "Coef06"; Var "Coef07">>));;
  Decl "Fac2" (Some (Call vec4__float_float_float_float <<Var "Coef08"; Var "Coef08"; Var "Coef10"; Var "Coef11">>));;
  Decl "Fac3" (Some (Call vec4__float_float_float_float <<Var "Coef12"; Var "Coef12"; Var "Coef14"; Var "Coef15">>));;
  Decl "Fac4" (Some (Call vec4__float_float_float_float <<Var "Coef16"; Var "Coef16"; Var "Coef18"; Var "Coef19">>));;
  Decl "Fac5" (Some (Call vec4__float_float_float_float <<Var "Coef20"; Var "Coef20"; Var "Coef22"; Var "Coef23">>));;
  Decl "Vec0" (Some (Call vec4__float_float_float_float <<Call vec4__index_const <<Call mat4__index_const <<Var "m"; UInt 1>>; UInt 0>>; Call
    vec4__index_const <<Call mat4__index_const <<Var "m"; UInt 0>>; UInt 0>>; Call vec4__index_const <<Call mat4__index_const <<Var "m"; UInt 0>>;
    UInt 0>>; Call vec4__index_const <<Call mat4__index_const <<Var "m"; UInt 0>>; UInt 0>>>>));;
  Decl "Vec1" (Some (Call vec4__float_float_float_float <<Call vec4__index_const <<Call mat4__index_const <<Var "m"; UInt 1>>; UInt 1>>; Call
    vec4__index_const <<Call mat4__index_const <<Var "m"; UInt 0>>; UInt 1>>; Call vec4__index_const <<Call mat4__index_const <<Var "m"; UInt 0>>;
    UInt 1>>; Call vec4__index_const <<Call mat4__index_const <<Var "m"; UInt 0>>; UInt 1>>>>));;
  Decl "Vec2" (Some (Call vec4__float_float_float_float <<Call vec4__index_const <<Call mat4__index_const <<Var "m"; UInt 1>>; UInt 2>>; Call
    vec4__index_const <<Call mat4__index_const <<Var "m"; UInt 0>>; UInt 2>>; Call vec4__index_const <<Call mat4__index_const <<Var "m"; UInt 0>>;
    UInt 2>>; Call vec4__index_const <<Call mat4__index_const <<Var "m"; UInt 0>>; UInt 2>>>>));;
  Decl "Vec3" (Some (Call vec4__float_float_float_float <<Call vec4__index_const <<Call mat4__index_const <<Var "m"; UInt 1>>; UInt 3>>; Call
    vec4__index_const <<Call mat4__index_const <<Var "m"; UInt 0>>; UInt 3>>; Call vec4__index_const <<Call mat4__index_const <<Var "m"; UInt 0>>;
    UInt 3>>; Call vec4__index_const <<Call mat4__index_const <<Var "m"; UInt 0>>; UInt 3>>>>));;
  Decl "Inv0" (Some (Call op_add_vec4_vec4 <<Call op_sub_vec4_vec4 <<Call op_mul_vec4_vec4 <<Var "Vec1"; Var "Fac0">>; Call op_mul_vec4_vec4 <<Var
    "Vec2"; Var "Fac1">>>>; Call op_mul_vec4_vec4 <<Var "Vec3"; Var "Fac2">>>>));;
  Decl "Inv1" (Some (Call op_add_vec4_vec4 <<Call op_sub_vec4_vec4 <<Call op_mul_vec4_vec4 <<Var "Vec0"; Var "Fac0">>; Call op_mul_vec4_vec4 <<Var
    "Vec2"; Var "Fac3">>>>; Call op_mul_vec4_vec4 <<Var "Vec3"; Var "Fac4">>>>));;
  Decl "Inv2" (Some (Call op_add_vec4_vec4 <<Call op_sub_vec4_vec4 <<Call op_mul_vec4_vec4 <<Var "Vec0"; Var "Fac1">>; Call op_mul_vec4_vec4 <<Var
    "Vec1"; Var "Fac3">>>>; Call op_mul_vec4_vec4 <<Var "Vec3"; Var "Fac5">>>>));;
  Decl "Inv3" (Some (Call op_add_vec4_vec4 <<Call op_sub_vec4_vec4 <<Call op_mul_vec4_vec4 <<Var "Vec0"; Var "Fac2">>; Call op_mul_vec4_vec4 <<Var
    "Vec1"; Var "Fac4">>>>; Call op_mul_vec4_vec4 <<Var "Vec2"; Var "Fac5">>>>));;
  Decl "SignA" (Some (Call vec4__float_float_float_float <<Conv Tfloat (Un Oplus (Int 1)); Conv Tfloat (Un Oneg (Int 1)); Conv Tfloat (Un Oplus (Int
    1)); Conv Tfloat (Un Oneg (Int 1))>>));;
  Decl "SignB" (Some (Call vec4__float_float_float_float <<Conv Tfloat (Un Oneg (Int 1)); Conv Tfloat (Un Oplus (Int 1)); Conv Tfloat (Un Oneg (Int 1));
    Conv Tfloat (Un Oplus (Int 1))>>));;
  Decl "inverse" (Some (Call mat4__vec4_vec4_vec4_vec4 <<Call op_mul_vec4_vec4 <<Var "Inv0"; Var "SignA">>; Call op_mul_vec4_vec4 <<Var "Inv1"; Var
    "SignB">>; Call op_mul_vec4_vec4 <<Var "Inv2"; Var "SignA">>; Call op_mul_vec4_vec4 <<Var "Inv3"; Var "SignB">>>>));;
  Decl "Row0" (Some (Call vec4__float_float_float_float <<Read (LIdx vec4__index (LIdx mat4__index (LVar "inverse") (UInt 0)) (UInt 0)); Read (LIdx
    vec4__index (LIdx mat4__index (LVar "inverse") (UInt 1)) (UInt 0)); Read (LIdx vec4__index (LIdx mat4__index (LVar "inverse") (UInt 2)) (UInt 0));
    Read (LIdx vec4__index (LIdx mat4__index (LVar "inverse") (UInt 3)) (UInt 0))>>));;
  Decl "Dot0" (Some (Call op_mul_vec4_vec4 <<Call mat4__index_const <<Var "m"; UInt 0>>; Var "Row0">>));;
  Decl "Dot1" (Some (Bin Oadd (Bin Oadd (Read (LFld (LVar "Dot0") 0)) (Read (LFld (LVar "Dot0") 1))) (Bin Oadd (Read (LFld (LVar "Dot0") 2)) (Read (LFld
    (LVar "Dot0") 3)))));;
  Decl "oneOverDeterminant" (Some (Bin Odiv (Lit 1 0) (Var "Dot1")));;
  Return (Call op_mul_mat4_float <<Var "inverse"; Var "oneOverDeterminant">>)).
(** src/matrix.cpp 206-214 *)
Definition c_adjugate_mat2 : fundef fn := Fun ["m"] [Tcls Cmat2] (RVal (Tcls Cmat2)) [] (
  Decl "Adjugate" (Some (Call mat2__float_float_float_float <<Un Oplus (Read (LIdx vec2__index (LTmp (Call mat2__index_const <<Var "m"; UInt 1>>)) (UInt
    1))); Un Oneg (Read (LIdx vec2__index (LTmp (Call mat2__index_const <<Var "m"; UInt 0>>)) (UInt 1))); Un Oneg (Read (LIdx vec2__index (LTmp (Call
    mat2__index_const <<Var "m"; UInt 1>>)) (UInt 0))); Un Oplus (Read (LIdx vec2__index (LTmp (Call mat2__index_const <<Var "m"; UInt 0>>)) (UInt
    0)))>>));;
  Return (Var "Adjugate")).
(** src/matrix.cpp 217-231 *)
Definition c_adjugate_mat3 : fundef fn := Fun ["m"] [Tcls Cmat3] (RVal (Tcls Cmat3)) [] (
  Decl "Adjugate" (Some (Call mat3__no_init_t ENil));;
  Assign (LIdx vec3__index (LIdx mat3__index (LVar "Adjugate") (UInt 0)) (UInt 0)) (Un Oplus (Bin Osub (Bin Omul (Call vec3__index_const <<Call
    mat3__index_const <<Var "m"; UInt 1>>; UInt 1>>) (Call vec3__index_const <<Call mat3__index_const <<Var "m"; UInt 2>>; UInt 2>>)) (Bin Omul (Call
    vec3__index_const <<Call mat3__index_const <<Var "m"; UInt 2>>; UInt 1>>) (Call vec3__index_const <<Call mat3__index_const <<Var "m"; UInt 1>>;
    UInt 2>>))));;
  Assign (LIdx vec3__index (LIdx mat3__index (LVar "Adjugate") (UInt 1)) (UInt 0)) (Un Oneg (Bin Osub (Bin Omul (Call vec3__index_const <<Call
    mat3__index_const <<Var "m"; UInt 1>>; UInt 0>>) (Call vec3__index_const <<Call mat3__index_const <<Var "m"; UInt 2>>; UInt 2>>)) (Bin Omul (Call
    vec3__index_const <<Call mat3__index_const <<Var "m"; UInt 2>>; UInt 0>>) (Call vec3__index_const <<Call mat3__index_const <<Var "m"; UInt 1>>;
    UInt 2>>))));;
  Assign (LIdx vec3__index (LIdx mat3__index (LVar "Adjugate") (UInt 2)) (UInt 0)) (Un Oplus (Bin Osub (Bin Omul (Call vec3__index_const <<Call
    mat3__index_const <<Var "m"; UInt 1>>; UInt 0>>) (Call vec3__index_const <<Call mat3__index_const <<Var "m"; UInt 2>>; UInt 1>>)) (Bin Omul (Call
    vec3__index_const <<Call mat3__index_const <<Var "m"; UInt 2>>; UInt 0>>) (Call vec3__index_const <<Call mat3__index_const <<Var "m"; UInt 1>>;
    UInt 1>>))));;
  Assign (LIdx vec3__index (LIdx mat3__index (LVar "Adjugate") (UInt 0)) (UInt 1)) (Un Oneg (Bin Osub (Bin Omul (Call vec3__index_const <<Call
    mat3__index_const <<Var "m"; UInt 0>>; UInt 1>>) (Call vec3__index_const <<Call mat3__index_const <<Var "m"; UInt 2>>; UInt 2>>)) (Bin Omul (Call
    vec3__index_const <<Call mat3__index_const <<Var "m"; UInt 2>>; UInt 1>>) (Call vec3__index_const <<Call mat3__index_const <<Var "m"; UInt 0>>;
    UInt 2>>))));;
  Assign (LIdx vec3__index (LIdx mat3__index (LVar "Adjugate") (UInt 1)) (UInt 1)) (Un Oplus (Bin Osub (Bin Omul (Call vec3__index_const <<Call
    mat3__index_const <<Var "m"; UInt 0>>; UInt 0>>) (Call vec3__index_const <<Call mat3__index_const <<Var "m"; UInt 2>>; UInt 2>>)) (Bin Omul (Call
    vec3__index_const <<Call mat3__index_const <<Var "m"; UInt 2>>; UInt 0>>) (Call vec3__index_const <<Call mat3__index_const <<Var "m"; UInt 0>>;
    UInt 2>>))));;
  Assign (LIdx vec3__index (LIdx mat3__index (LVar "Adjugate") (UInt 2)) (UInt 1)) (Un Oneg (Bin Osub (Bin Omul (Call vec3__index_const <<Call
    mat3__index_const <<Var "m"; UInt 0>>; UInt 0>>) (Call vec3__index_const <<Call mat3__index_const <<Var "m"; UInt 2>>; UInt 1>>)) (Bin Omul (Call
    vec3__index_const <<Call mat3__index_const <<Var "m"; UInt 2>>; UInt 0>>) (Call vec3__index_const <<Call mat3__index_const <<Var "m"; UInt 0>>;
    UInt 1>>))));;
  Assign (LIdx vec3__index (LIdx mat3__index (LVar "Adjugate") (UInt 0)) (UInt 2)) (Un Oplus (Bin Osub (Bin Omul (Call vec3__index_const <<Call
    mat3__index_const <<Var "m"; UInt 0>>; UInt 1>>) (Call vec3__index_const <<Call mat3__index_const <<Var "m"; UInt 1>>; UInt 2>>)) (Bin Omul (Call
    vec3__index_const <<Call mat3__index_const <<Var "m"; UInt 1>>; UInt 1>>) (Call vec3__index_const <<Call mat3__index_const <<Var "m"; UInt 0>>;
    UInt 2>>))));;
  Assign (LIdx vec3__index (LIdx mat3__index (LVar "Adjugate") (UInt 1)) (UInt 2)) (Un Oneg (Bin Osub (Bin Omul (Call vec3__index_const <<Call
    mat3__index_const <<Var "m"; UInt 0>>; UInt 0>>) (Call vec3__index_const <<Call mat3__index_const <<Var "m"; UInt 1>>; UInt 2>>)) (Bin Omul (Call
    vec3__index_const <<Call mat3__index_const <<Var "m"; UInt 1>>; UInt 0>>) (Call vec3__index_const <<Call mat3__index_const <<Var "m"; UInt 0>>;
    UInt 2>>))));;
  Assign (LIdx vec3__index (LIdx mat3__index (LVar "Adjugate") (UInt 2)) (UInt 2)) (Un Oplus (Bin Osub (Bin Omul (Call vec3__index_const <<Call
    mat3__index_const <<Var "m"; UInt 0>>; UInt 0>>) (Call vec3__index_const <<Call mat3__index_const <<Var "m"; UInt 1>>; UInt 1>>)) (Bin Omul (Call
    vec3__index_const <<Call mat3__index_const <<Var "m"; UInt 1>>; UInt 0>>) (Call vec3__index_const <<Call mat3__index_const <<Var "m"; UInt 0>>;
    UInt 1>>))));;
  Return (Var "Adjugate")).
(** src/matrix.cpp 233-281 *)
Definition c_adjugate_mat4 : fundef fn := Fun ["m"] [Tcls Cmat4] (RVal (Tcls Cmat4)) [] (
  Decl "Coef00" (Some (Bin Osub (Bin Omul (Call vec4__index_const <<Call mat4__index_const <<Var "m"; UInt 2>>; UInt 2>>) (Call vec4__index_const <<Call
    mat4__index_const <<Var "m"; UInt 3>>; UInt 3>>)) (Bin Omul (Call vec4__index_const <<Call mat4__index_const <<Var "m"; UInt 3>>; UInt 2>>) (Call
    vec4__index_const <<Call mat4__index_const <<Var "m"; UInt 2>>; UInt 3>>))));;
  Decl "Coef02" (Some (Bin Osub (Bin Omul (Call vec4__index_const <<Call mat4__index_const <<Var "m"; UInt 1>>; UInt 2>>) (Call vec4__index_const <<Call
    mat4__index_const <<Var "m"; UInt 3>>; UInt 3>>)) (Bin Omul (Call vec4__index_const <<Call mat4__index_const <<Var "m"; UInt 3>>; UInt 2>>) (Call
    vec4__index_const <<Call mat4__index_const <<Var "m"; UInt 1>>; UInt 3>>))));;
  Decl "Coef03" (Some (Bin Osub (Bin Omul (Call vec4__index_const <<Call mat4__index_const <<Var "m"; UInt 1>>; UInt 2>>) (Call vec4__index_const <<Call
    mat4__index_const <<Var "m"; UInt 2>>; UInt 3>>)) (Bin Omul (Call vec4__index_const <<Call mat4__index_const <<Var "m"; UInt 2>>; UInt 2>>) (Call
    vec4__index_const <<Call mat4__index_const <<Var "m"; UInt 1>>; UInt 3>>))));;
  Decl "Coef04" (Some (Bin Osub (Bin Omul (Call vec4__index_const <<Call mat4__index_const <<Var "m"; UInt 2>>; UInt 1>>) (Call vec4__index_const <<Call
    mat4__index_const <<Var "m"; UInt 3>>; UInt 3>>)) (Bin Omul (Call vec4__index_const <<Call mat4__index_const <<Var "m"; UInt 3>>; UInt 1>>) (Call
    vec4__index_const <<Call mat4__index_const <<Var "m"; UInt 2>>; UInt 3>>))));;
  Decl "Coef06" (Some (Bin Osub (Bin Omul (Call vec4__index_const <<Call mat4__index_const <<Var "m"; UInt 1>>; UInt 1>>) (Call vec4__index_const <<Call
    mat4__index_const <<Var "m"; UInt 3>>; UInt 3>>)) (Bin Omul (Call vec4__index_const <<Call mat4__index_const <<Var "m"; UInt 3>>; UInt 1>>) (Call
    vec4__index_const <<Call mat4__index_const <<Var "m"; UInt 1>>; UInt 3>>))));;
  Decl "Coef07" (Some (Bin Osub (Bin Omul (Call vec4__index_const <<Call mat4__index_const <<Var "m"; UInt 1>>; UInt 1>>) (Call vec4__index_const <<Call
    mat4__index_const <<Var "m"; UInt 2>>; UInt 3>>)) (Bin Omul (Call vec4__index_const <<Call mat4__index_const <<Var "m"; UInt 2>>; UInt 1>>) (Call
    vec4__index_const <<Call mat4__index_const <<Var "m"; UInt 1>>; UInt 3>>))));;
  Decl "Coef08" (Some (Bin Osub (Bin Omul (Call vec4__index_const <<Call mat4__index_const <<Var "m"; UInt 2>>; UInt 1>>) (Call vec4__index_const <<Call
    mat4__index_const <<Var "m"; UInt 3>>; UInt 2>>)) (Bin Omul (Call vec4__index_const <<Call mat4__index_const <<Var "m"; UInt 3>>; UInt 1>>) (Call
    vec4__index_const <<Call mat4__index_const <<Var "m"; UInt 2>>; UInt 2>>))));;
  Decl "Coef10" (Some (Bin Osub (Bin Omul (Call vec4__index_const <<Call mat4__index_const <<Var "m"; UInt 1>>; UInt 1>>) (Call vec4__index_const <<Call
    mat4__index_const <<Var "m"; UInt 3>>; UInt 2>>)) (Bin Omul (Call vec4__index_const <<Call mat4__index_const <<Var "m"; UInt 3>>; UInt 1>>) (Call
    vec4__index_const <<Call mat4__index_const <<Var "m"; UInt 1>>; UInt 2>>))));;
  Decl "Coef11" (Some (Bin Osub (Bin Omul (Call vec4__index_const <<Call mat4__index_const <<Var "m"; UInt 1>>; UInt 1>>) (Call vec4__index_const <<Call
    mat4__index_const <<Var "m"; UInt 2>>; UInt 2>>)) (Bin Omul (Call vec4__index_const <<Call mat4__index_const <<Var "m"; UInt 2>>; UInt 1>>) (Call
    vec4__index_const <<Call mat4__index_const <<Var "m"; UInt 1>>; UInt 2>>))));;
  Decl "Coef12" (Some (Bin Osub (Bin Omul (Call vec4__index_const <<Call mat4__index_const <<Var "m"; UInt 2>>; UInt 0>>) (Call vec4__index_const <<Call
    mat4__index_const <<Var "m"; UInt 3>>; UInt 3>>)) (Bin Omul (Call vec4__index_const <<Call mat4__index_const <<Var "m"; UInt 3>>; UInt 0>>) (Call
    vec4__index_const <<Call mat4__index_const <<Var "m"; UInt 2>>; UInt 3>>))));;
  Decl "Coef14" (Some (Bin Osub (Bin Omul (Call vec4__index_const <<Call mat4__index_const <<Var "m"; UInt 1>>; UInt 0>>) (Call vec4__index_const <<Call
    mat4__index_const <<Var "m"; UInt 3>>; UInt 3>>)) (Bin Omul (Call vec4__index_const <<Call mat4__index_const <<Var "m"; UInt 3>>; UInt 0>>) (Call
    vec4__index_const <<Call mat4__index_const <<Var "m"; UInt 1>>; UInt 3>>))));;
  Decl "Coef15" (Some (Bin Osub (Bin Omul (Call vec4__index_const <<Call mat4__index_const <<Var "m"; UInt 1>>; UInt 0>>) (Call vec4__index_const <<Call
    mat4__index_const <<Var "m"; UInt 2>>; UInt 3>>)) (Bin Omul (Call vec4__index_const <<Call mat4__index_const <<Var "m"; UInt 2>>; UInt 0>>) (Call
    vec4__index_const <<Call mat4__index_const <<Var "m"; UInt 1>>; UInt 3>>))));;
  Decl "Coef16" (Some (Bin Osub (Bin Omul (Call vec4__index_const <<Call mat4__index_const <<Var "m"; UInt 2>>; UInt 0>>) (Call vec4__index_const <<Call
    mat4__index_const <<Var "m"; UInt 3>>; UInt 2>>)) (Bin Omul (Call vec4__index_const <<Call mat4__index_const <<Var "m"; UInt 3>>; UInt 0>>) (Call
    vec4__index_const <<Call mat4__index_const <<Var "m"; UInt 2>>; UInt 2>>))));;
  Decl "Coef18" (Some (Bin Osub (Bin Omul (Call vec4__index_const <<Call mat4__index_const <<Var "m"; UInt 1>>; UInt 0>>) (Call vec4__index_const <<Call
    mat4__index_const <<Var "m"; UInt 3>>; UInt 2>>)) (Bin Omul (Call vec4__index_const <<Call mat4__index_const <<Var "m"; UInt 3>>; UInt 0>>) (Call
    vec4__index_const <<Call mat4__index_const <<Var "m"; UInt 1>>; UInt 2>>))));;
  Decl "Coef19" (Some (Bin Osub (Bin Omul (Call vec4__index_const <<Call mat4__index_const <<Var "m"; UInt 1>>; UInt 0>>) (Call vec4__index_const <<Call
    mat4__index_const <<Var "m"; UInt 2>>; UInt 2>>)) (Bin Omul (Call vec4__index_const <<Call mat4__index_const <<Var "m"; UInt 2>>; UInt 0>>) (Call
    vec4__index_const <<Call mat4__index_const <<Var "m"; UInt 1>>; UInt 2>>))));;
  Decl "Coef20" (Some (Bin Osub (Bin Omul (Call vec4__index_const <<Call mat4__index_const <<Var "m"; UInt 2>>; UInt 0>>) (Call vec4__index_const <<Call
    mat4__index_const <<Var "m"; UInt 3>>; UInt 1>>)) (Bin Omul (Call vec4__index_const <<Call mat4__index_const <<Var "m"; UInt 3>>; UInt 0>>) (Call
    vec4__index_const <<Call mat4__index_const <<Var "m"; UInt 2>>; UInt 1>>))));;
  Decl "Coef22" (Some (Bin Osub (Bin Omul (Call vec4__index_const <<Call mat4__index_const <<Var "m"; UInt 1>>; UInt 0>>) (Call vec4__index_const <<Call
    mat4__index_const <<Var "m"; UInt 3>>; UInt 1>>)) (Bin Omul (Call vec4__index_const <<Call mat4__index_const <<Var "m"; UInt 3>>; UInt 0>>) (Call
    vec4__index_const <<Call mat4__index_const <<Var "m"; UInt 1>>; UInt 1>>))));;
  Decl "Coef23" (Some (Bin Osub (Bin Omul (Call vec4__index_const <<Call mat4__index_const <<Var "m"; UInt 1>>; UInt 0>>) (Call vec4__index_const <<Call
    mat4__index_const <<Var "m"; UInt 2>>; UInt 1>>)) (Bin Omul (Call vec4__index_const <<Call mat4__index_const <<Var "m"; UInt 2>>; UInt 0>>) (Call
    vec4__index_const <<Call mat4__index_const <<Var "m"; UInt 1>>; UInt 1>>))));;
  Decl "Fac0" (Some (Call vec4__float_float_float_float <<Var "Coef00"; Var "Coef00"; Var "Coef02"; Var "Coef03">>));;
  Decl "Fac1" (Some (Call vec4__float_float_float_float <<Var "Coef04"; Var "Coef04"; Var "Coef06"; Var "Coef07">>));;
  Decl "Fac2" (Some (Call vec4__float_float_float_float <<Var "Coef08"; Var "Coef08"; Var "Coef10"; Var "Coef11">>));;
  Decl "Fac3" (Some (Call vec4__float_float_float_float <<Var "Coef12"; Var "Coef12"; Var "Coef14"; Var "Coef15">>));;
  Decl "Fac4" (Some (Call vec4__float_float_float_float <<Var "Coef16"; Var "Coef16"; Var "Coef18"; Var "Coef19">>));;
  Decl "Fac5" (Some (Call vec4__float_float_float_float <<Var "Coef20"; Var "Coef20"; Var "Coef22"; Var "Coef23">>));;
  Decl "Vec0" (Some (Call vec4__float_float_float_float <<Call vec4__index_const <<Call mat4__index_const <<Var "m"; UInt 1>>; UInt 0>>; Call
    vec4__index_const <<Call mat4__index_const <<Var "m"; UInt 0>>; UInt 0>>; Call vec4__index_const <<Call mat4__index_const <<Var "m"; UInt 0>>;
    UInt 0>>; Call vec4__index_const <<Call mat4__index_const <<Var "m"; UInt 0>>; UInt 0>>>>));;
  Decl "Vec1" (Some (Call vec4__float_float_float_float <<Call vec4__index_const <<Call mat4__index_const <<Var "m"; UInt 1>>; UInt 1>>; Call
    vec4__index_const <<Call mat4__index_const <<Var "m"; UInt 0>>; UInt 1>>; Call vec4__index_const <<Call mat4__index_const <<Var "m"; UInt 0>>;
    UInt 1>>; Call vec4__index_const <<Call mat4__index_const <<Var "m"; UInt 0>>; UInt 1>>>>));;
  Decl "Vec2" (Some (Call vec4__float_float_float_float <<Call vec4__index_const <<Call mat4__index_const <<Var "m"; UInt 1>>; UInt 2>>; Call
    vec4__index_const <<Call mat4__index_const <<Var "m"; UInt 0>>; UInt 2>>; Call vec4__index_const <<Call mat4__index_const <<Var "m"; UInt 0>>;
    UInt 2>>; Call vec4__index_const <<Call mat4__index_const <<Var "m"; UInt 0>>; UInt 2>>>>));;
  Decl "Vec3" (Some (Call vec4__float_float_float_float <<Call vec4__index_const <<Call mat4__index_const <<Var "m"; UInt 1>>; UInt 3>>; Call
    vec4__index_const <<Call mat4__index_const <<Var "m"; UInt 0>>; UInt 3>>; Call vec4__index_const <<Call mat4__index_const <<Var "m"; UInt 0>>;
    UInt 3>>; Call vec4__index_const <<Call mat4__index_const <<Var "m"; UInt 0>>; UInt 3>>>>));;
  Decl "Inv0" (Some (Call op_add_vec4_vec4 <<Call op_sub_vec4_vec4 <<Call op_mul_vec4_vec4 <<Var "Vec1"; Var "Fac0">>; Call op_mul_vec4_vec4 <<Var
    "Vec2"; Var "Fac1">>>>; Call op_mul_vec4_vec4 <<Var "Vec3"; Var "Fac2">>>>));;
  Decl "Inv1" (Some (Call op_add_vec4_vec4 <<Call op_sub_vec4_vec4 <<Call op_mul_vec4_vec4 <<Var "Vec0"; Var "Fac0">>; Call op_mul_vec4_vec4 <<Var
    "Vec2"; Var "Fac3">>>>; Call op_mul_vec4_vec4 <<Var "Vec3"; Var "Fac4">>>>));;
  Decl "Inv2" (Some (Call op_add_vec4_vec4 <<Call op_sub_vec4_vec4 <<Call op_mul_vec4_vec4 <<Var "Vec0"; Var "Fac1">>; Call op_mul_vec4_vec4 <<Var
    "Vec1"; Var "Fac3">>>>; Call op_mul_vec4_vec4 <<Var "Vec3"; Var "Fac5">>>>));;
  Decl "Inv3" (Some (Call op_add_vec4_vec4 <<Call op_sub_vec4_vec4 <<Call op_mul_vec4_vec4 <<Var "Vec0"; Var "Fac2">>; Call op_mul_vec4_vec4 <<Var
    "Vec1"; Var "Fac4">>>>; Call op_mul_vec4_vec4 <<Var "Vec2"; Var "Fac5">>>>));;
  Decl "SignA" (Some (Call vec4__float_float_float_float <<Conv Tfloat (Un Oplus (Int 1)); Conv Tfloat (Un Oneg (Int 1)); Conv Tfloat (Un Oplus (Int
    1)); Conv Tfloat (Un Oneg (Int 1))>>));;
  Decl "SignB" (Some (Call vec4__float_float_float_float <<Conv Tfloat (Un Oneg (Int 1)); Conv Tfloat (Un Oplus (Int 1)); Conv Tfloat (Un Oneg (Int 1));
    Conv Tfloat (Un Oplus (Int 1))>>));;
  Decl "inverse" (Some (Call mat4__vec4_vec4_vec4_vec4 <<Call op_mul_vec4_vec4 <<Var "Inv0"; Var "SignA">>; Call op_mul_vec4_vec4 <<Var "Inv1"; Var
    "SignB">>; Call op_mul_vec4_vec4 <<Var "Inv2"; Var "SignA">>; Call op_mul_vec4_vec4 <<Var "Inv3"; Var "SignB">>>>));;
  Return (Var "inverse")).
(** src/matrix.cpp 283-294 *)
Definition c_inverseTranspose_mat2 : fundef fn := Fun ["m"] [Tcls Cmat2] (RVal (Tcls Cmat2)) [] (
  Decl "Determinant" (Some (Bin Osub (Bin Omul (Read (LIdx vec2__index (LTmp (Call mat2__index_const <<Var "m"; UInt 0>>)) (UInt 0))) (Read (LIdx
    vec2__index (LTmp (Call mat2__index_const <<Var "m"; UInt 1>>)) (UInt 1)))) (Bin Omul (Read (LIdx vec2__index (LTmp (Call mat2__index_const <<Var
    "m"; UInt 1>>)) (UInt 0))) (Read (LIdx vec2__index (LTmp (Call mat2__index_const <<Var "m"; UInt 0>>)) (UInt 1))))));;
  Decl "Inverse" (Some (Call mat2__float_float_float_float <<Bin Odiv (Un Oplus (Read (LIdx vec2__index (LTmp (Call mat2__index_const <<Var "m"; UInt
    1>>)) (UInt 1)))) (Var "Determinant"); Bin Odiv (Un Oneg (Read (LIdx vec2__index (LTmp (Call mat2__index_const <<Var "m"; UInt 0>>)) (UInt 1))))
    (Var "Determinant"); Bin Odiv (Un Oneg (Read (LIdx vec2__index (LTmp (Call mat2__index_const <<Var "m"; UInt 1>>)) (UInt 0)))) (Var
    "Determinant"); Bin Odiv (Un Oplus (Read (LIdx vec2__index (LTmp (Call mat2__index_const <<Var "m"; UInt 0>>)) (UInt 0)))) (Var "Determinant")>>));;
  Return (Var "Inverse")).
(** src/matrix.cpp 296-314 *)
Definition c_inverseTranspose_mat3 : fundef fn := Fun ["m"] [Tcls Cmat3] (RVal (Tcls Cmat3)) [] (
  Decl "Determinant" (Some (Bin Oadd (Bin Osub (Bin Omul (Un Oplus (Call vec3__index_const <<Call mat3__index_const <<Var "m"; UInt 0>>; UInt 0>>)) (Bin
    Osub (Bin Omul (Call vec3__index_const <<Call mat3__index_const <<Var "m"; UInt 1>>; UInt 1>>) (Call vec3__index_const <<Call mat3__index_const
    <<Var "m"; UInt 2>>; UInt 2>>)) (Bin Omul (Call vec3__index_const <<Call mat3__index_const <<Var "m"; UInt 1>>; UInt 2>>) (Call vec3__index_const
    <<Call mat3__index_const <<Var "m"; UInt 2>>; UInt 1>>)))) (Bin Omul (Call vec3__index_const <<Call mat3__index_const <<Var "m"; UInt 0>>; UInt
    1>>) (Bin Osub (Bin Omul (Call vec3__index_const <<Call mat3__index_const <<Var "m"; UInt 1>>; UInt 0>>) (Call vec3__index_const <<Call
    mat3__index_const <<Var "m"; UInt 2>>; UInt 2>>)) (Bin Omul (Call vec3__index_const <<Call mat3__index_const <<Var "m"; UInt 1>>; UInt 2>>) (Call
    vec3__index_const <<Call mat3__index_const <<Var "m"; UInt 2>>; UInt 0>>))))) (Bin Omul (Call vec3__index_const <<Call mat3__index_const <<Var
    "m"; UInt 0>>; UInt 2>>) (Bin Osub (Bin Omul (Call vec3__index_const <<Call mat3__index_const <<Var "m"; UInt 1>>; UInt 0>>) (Call
    vec3__index_const <<Call mat3__index_const <<Var "m"; UInt 2>>; UInt 1>>)) (Bin Omul (Call vec3__index_const <<Call mat3__index_const <<Var "m";
    UInt 1>>; UInt 1>>) (Call vec3__index_const <<Call mat3__index_const <<Var "m"; UInt 2>>; UInt 0>>))))));;
  Decl "Inverse" (Some (Call mat3__no_init_t ENil));;
  Assign (LIdx vec3__index (LIdx mat3__index (LVar "Inverse") (UInt 0)) (UInt 0)) (Un Oplus (Bin Osub (Bin Omul (Call vec3__index_const <<Call
    mat3__index_const <<Var "m"; UInt 1>>; UInt 1>>) (Call vec3__index_const <<Call mat3__index_const <<Var "m"; UInt 2>>; UInt 2>>)) (Bin Omul (Call
    vec3__index_const <<Call mat3__index_const <<Var "m"; UInt 2>>; UInt 1>>) (Call vec3__index_const <<Call mat3__index_const <<Var "m"; UInt 1>>;
    UInt 2>>))));;
  Assign (LIdx vec3__index (LIdx mat3__index (LVar "Inverse") (UInt 0)) (UInt 1)) (Un Oneg (Bin Osub (Bin Omul (Call vec3__index_const <<Call
    mat3__index_const <<Var "m"; UInt 1>>; UInt 0>>) (Call vec3__index_const <<Call mat3__index_const <<Var "m"; UInt 2>>; UInt 2>>)) (Bin Omul (Call
    vec3__index_const <<Call mat3__index_const <<Var "m"; UInt 2>>; UInt 0>>) (Call vec3__index_const <<Call mat3__index_const <<Var "m"; UInt 1>>;
    UInt 2>>))));;
  Assign (LIdx vec3__index (LIdx mat3__index (LVar "Inverse") (UInt 0)) (UInt 2)) (Un Oplus (Bin Osub (Bin Omul (Call vec3__index_const <<Call
    mat3__index_const <<Var "m"; UInt 1>>; UInt 0>>) (Call vec3__index_const <<Call mat3__index_const <<Var "m"; UInt 2>>; UInt 1>>)) (Bin Omul (Call
    vec3__index_const <<Call mat3__index_const <<Var "m"; UInt 2>>; UInt 0>>) (Call vec3__index_const <<Call mat3__index_const <<Var "m"; UInt 1>>;
    UInt 1>>))));;
  Assign (LIdx vec3__index (LIdx mat3__index (LVar "Inverse") (UInt 1)) (UInt 0)) (Un Oneg (Bin Osub (Bin Omul (Call vec3__index_const <<Call
    mat3__index_const <<Var "m"; UInt 0>>; UInt 1>>) (Call vec3__index_const <<Call mat3__index_const <<Var "m"; UInt 2>>; UInt 2>>)) (Bin Omul (Call
    vec3__index_const <<Call mat3__index_const <<Var "m"; UInt 2>>; UInt 1>>) (Call vec3__index_const <<Call mat3__index_const <<Var "m"; UInt 0>>;
    UInt 2>>))));;
  Assign (LIdx vec3__index (LIdx mat3__index (LVar "Inverse") (UInt 1)) (UInt 1)) (Un Oplus (Bin Osub (Bin Omul (Call vec3__index_const <<Call
    mat3__index_const <<Var "m"; UInt 0>>; UInt 0>>) (Call vec3__index_const <<Call mat3__index_const <<Var "m"; UInt 2>>; UInt 2>>)) (Bin Omul (Call
    vec3__index_const <<Call mat3__index_const <<Var "m"; UInt 2>>; UInt 0>>) (Call vec3__index_const <<Call mat3__index_const <<Var "m"; UInt 0>>;
    UInt 2>>))));;
  Assign (LIdx vec3__index (LIdx mat3__index (LVar "Inverse") (UInt 1)) (UInt 2)) (Un Oneg (Bin Osub (Bin Omul (Call vec3__index_const <<Call
    mat3__index_const <<Var "m"; UInt 0>>; UInt 0>>) (Call vec3__index_const <<Call mat3__index_const <<Var "m"; UInt 2>>; UInt 1>>)) (Bin Omul (Call
    vec3__index_const <<Call mat3__index_const <<Var "m"; UInt 2>>; UInt 0>>) (Call vec3__index_const <<Call mat3__index_const <<Var "m"; UInt 0>>;
    UInt 1>>))));;
  Assign (LIdx vec3__index (LIdx mat3__index (LVar "Inverse") (UInt 2)) (UInt 0)) (Un Oplus (Bin Osub (Bin Omul (Call vec3__index_const <<Call
    mat3__index_const <<Var "m"; UInt 0>>; UInt 1>>) (Call vec3__index_const <<Call mat3__index_const <<Var "m"; UInt 1>>; UInt 2>>)) (Bin Omul (Call
    vec3__index_const <<Call mat3__index_const <<Var "m"; UInt 1>>; UInt 1>>) (Call vec3__index_const <<Call mat3__index_const <<Var "m"; UInt 0>>;
    UInt 2>>))));;
  Assign (LIdx vec3__index (LIdx mat3__index (LVar "Inverse") (UInt 2)) (UInt 1)) (Un Oneg (Bin Osub (Bin Omul (Call vec3__index_const <<Call
    mat3__index_const <<Var "m"; UInt 0>>; UInt 0>>) (Call vec3__index_const <<Call mat3__index_const <<Var "m"; UInt 1>>; UInt 2>>)) (Bin Omul (Call
    vec3__index_const <<Call mat3__index_const <<Var "m"; UInt 1>>; UInt 0>>) (Call vec3__index_const <<Call mat3__index_const <<Var "m"; UInt 0>>;
    UInt 2>>))));;
  Assign (LIdx vec3__index (LIdx mat3__index (LVar "Inverse") (UInt 2)) (UInt 2)) (Un Oplus (Bin Osub (Bin Omul (Call vec3__index_const <<Call
    mat3__index_const <<Var "m"; UInt 0>>; UInt 0>>) (Call vec3__index_const <<Call mat3__index_const <<Var "m"; UInt 1>>; UInt 1>>)) (Bin Omul (Call
    vec3__index_const <<Call mat3__index_const <<Var "m"; UInt 1>>; UInt 0>>) (Call vec3__index_const <<Call mat3__index_const <<Var "m"; UInt 0>>;
    UInt 1>>))));;
  Return (Call op_div_mat3_float <<Var "Inverse"; Var "Determinant">>)).
(** src/matrix.cpp 316-366 *)
Definition c_inverseTranspose_mat4 : fundef fn := Fun ["m"] [Tcls Cmat4] (RVal (Tcls Cmat4)) [] (
  Decl "SubFactor00" (Some (Bin Osub (Bin Omul (Call vec4__index_const <<Call mat4__index_const <<Var "m"; UInt 2>>; UInt 2>>) (Call vec4__index_const
    <<Call mat4__index_const <<Var "m"; UInt 3>>; UInt 3>>)) (Bin Omul (Call vec4__index_const <<Call mat4__index_const <<Var "m"; UInt 3>>; UInt 2>>)
    (Call vec4__index_const <<Call mat4__index_const <<Var "m"; UInt 2>>; UInt 3>>))));;
  Decl "SubFactor01" (Some (Bin Osub (Bin Omul (Call vec4__index_const <<Call mat4__index_const <<Var "m"; UInt 2>>; UInt 1>>) (Call vec4__index_const
    <<Call mat4__index_const <<Var "m"; UInt 3>>; UInt 3>>)) (Bin Omul (Call vec4__index_const <<Call mat4__index_const <<Var "m"; UInt 3>>; UInt 1>>)
    (Call vec4__index_const <<Call mat4__index_const <<Var "m"; UInt 2>>; UInt 3>>))));;
  Decl "SubFactor02" (Some (Bin Osub (Bin Omul (Call vec4__index_const <<Call mat4__index_const <<Var "m"; UInt 2>>; UInt 1>>) (Call vec4__index_const
    <<Call mat4__index_const <<Var "m"; UInt 3>>; UInt 2>>)) (Bin Omul (Call vec4__index_const <<Call mat4__index_const <<Var "m"; UInt 3>>; UInt 1>>)
    (Call vec4__index_const <<Call mat4__index_const <<Var "m"; UInt 2>>; UInt 2>>))));;
  Decl "SubFactor03" (Some (Bin Osub (Bin Omul (Call vec4__index_const <<Call mat4__index_const <<Var "m"; UInt 2>>; UInt 0>>) (Call vec4__index_const
    <<Call mat4__index_const <<Var "m"; UInt 3>>; UInt 3>>)) (Bin Omul (Call vec4__index_const <<Call mat4__index_const <<Var "m"; UInt 3>>; UInt 0>>)
    (Call vec4__index_const <<Call mat4__index_const <<Var "m"; UInt 2>>; UInt 3>>))));;
  Decl "SubFactor04" (Some (Bin Osub (Bin Omul (Call vec4__index_const <<Call mat4__index_const <<Var "m"; UInt 2>>; UInt 0>>) (Call vec4__index_const
    <<Call mat4__index_const <<Var "m"; UInt 3>>; UInt 2>>)) (Bin Omul (Call vec4__index_const <<Call mat4__index_const <<Var "m"; UInt 3>>; UInt 0>>)
    (Call vec4__index_const <<Call mat4__index_const <<Var "m"; UInt 2>>; UInt 2>>))));;
  Decl "SubFactor05" (Some (Bin Osub (Bin Omul (Call vec4__index_const <<Call mat4__index_const <<Var "m"; UInt 2>>; UInt 0>>) (Call vec4__index_const
    <<Call mat4__index_const <<Var "m"; UInt 3>>; UInt 1>>)) (Bin Omul (Call vec4__index_const <<Call mat4__index_const <<Var "m"; UInt 3>>; UInt 0>>)
    (Call vec4__index_const <<Call mat4__index_const <<Var "m"; UInt 2>>; UInt 1>>))));;
  Decl "SubFactor06" (Some (Bin Osub (Bin Omul (Call vec4__index_const <<Call mat4__index_const <<Var "m"; UInt 1>>; UInt 2>>) (Call vec4__index_const
    <<Call mat4__index_const <<Var "m"; UInt 3>>; UInt 3>>)) (Bin Omul (Call vec4__index_const <<Call mat4__index_const <<Var "m"; UInt 3>>; UInt 2>>)
    (Call vec4__index_const <<Call mat4__index_const <<Var "m"; UInt 1>>; UInt 3>>))));;
  Decl "SubFactor07" (Some (Bin Osub (Bin Omul (Call vec4__index_const <<Call mat4__index_const <<Var "m"; UInt 1>>; UInt 1>>) (Call vec4__index_const
    <<Call mat4__index_const <<Var "m"; UInt 3>>; UInt 3>>)) (Bin Omul (Call vec4__index_const <<Call mat4__index_const <<Var "m"; UInt 3>>; UInt 1>>)
    (Call vec4__index_const <<Call mat4__index_const <<Var "m"; UInt 1>>; UInt 3>>))));;
  Decl "SubFactor08" (Some (Bin Osub (Bin Omul (Call vec4__index_const <<Call mat4__index_const <<Var "m"; UInt 1>>; UInt 1>>) (Call vec4__index_const
    <<Call mat4__index_const <<Var "m"; UInt 3>>; UInt 2>>)) (Bin Omul (Call vec4__index_const <<Call mat4__index_const <<Var "m"; UInt 3>>; UInt 1>>)
    (Call vec4__index_const <<Call mat4__index_const <<Var "m"; UInt 1>>; UInt 2>>))));;
  Decl "SubFactor09" (Some (Bin Osub (Bin Omul (Call vec4__index_const <<Call mat4__index_const <<Var "m"; UInt 1>>; UInt 0>>) (Call vec4__index_const
    <<Call mat4__index_const <<Var "m"; UInt 3>>; UInt 3>>)) (Bin Omul (Call vec4__index_const <<Call mat4__index_const <<Var "m"; UInt 3>>; UInt 0>>)
    (Call vec4__index_const <<Call mat4__index_const <<Var "m"; UInt 1>>; UInt 3>>))));;
  Decl "SubFactor10" (Some (Bin Osub (Bin Omul (Call vec4__index_const <<Call mat4__index_const <<Var "m"; UInt 1>>; UInt 0>>) (Call vec4__index_const
    <<Call mat4__index_const <<Var "m"; UInt 3>>; UInt 2>>)) (Bin Omul (Call vec4__index_const <<Call mat4__index_const <<Var "m"; UInt 3>>; UInt 0>>)
    (Call vec4__index_const <<Call mat4__index_const <<Var "m"; UInt 1>>; UInt 2>>))));;
  Decl "SubFactor11" (Some (Bin Osub (Bin Omul (Call vec4__index_const <<Call mat4__index_const <<Var "m"; UInt 1>>; UInt 1>>) (Call vec4__index_const
    <<Call mat4__index_const <<Var "m"; UInt 3>>; UInt 3>>)) (Bin Omul (Call vec4__index_const <<Call mat4__index_const <<Var "m"; UInt 3>>; UInt 1>>)
    (Call vec4__index_const <<Call mat4__index_const <<Var "m"; UInt 1>>; UInt 3>>))));;
  Decl "SubFactor12" (Some (Bin Osub (Bin Omul (Call vec4__index_const <<Call mat4__index_const <<Var "m"; UInt 1>>; UInt 0>>) (Call vec4__index_const
    <<Call mat4__index_const <<Var "m"; UInt 3>>; UInt 1>>)) (Bin Omul (Call vec4__index_const <<Call mat4__index_const <<Var "m"; UInt 3>>; UInt 0>>)
    (Call vec4__index_const <<Call mat4__index_const <<Var "m"; UInt 1>>; UInt 1>>))));;
  Decl "SubFactor13" (Some (Bin Osub (Bin Omul (Call vec4__index_const <<Call mat4__index_const <<Var "m"; UInt 1>>; UInt 2>>) (Call vec4__index_const
    <<Call mat4__index_const <<Var "m"; UInt 2>>; UInt 3>>)) (Bin Omul (Call vec4__index_const <<Call mat4__index_const <<Var "m"; UInt 2>>; UInt 2>>)
    (Call vec4__index_const <<Call mat4__index_const <<Var "m"; UInt 1>>; UInt 3>>))));;
  Decl "SubFactor14" (Some (Bin Osub (Bin Omul (Call vec4__index_const <<Call mat4__index_const <<Var "m"; UInt 1>>; UInt 1>>) (Call vec4__index_const
    <<Call mat4__index_const <<Var "m"; UInt 2>>; UInt 3>>)) (Bin Omul (Call vec4__index_const <<Call mat4__index_const <<Var "m"; UInt 2>>; UInt 1>>)
    (Call vec4__index_const <<Call mat4__index_const <<Var "m"; UInt 1>>; UInt 3>>))));;
  Decl "SubFactor15" (Some (Bin Osub (Bin Omul (Call vec4__index_const <<Call mat4__index_const <<Var "m"; UInt 1>>; UInt 1>>) (Call vec4__index_const
    <<Call mat4__index_const <<Var "m"; UInt 2>>; UInt 2>>)) (Bin Omul (Call vec4__index_const <<Call mat4__index_const <<Var "m"; UInt 2>>; UInt 1>>)
    (Call vec4__index_const <<Call mat4__index_const <<Var "m"; UInt 1>>; UInt 2>>))));;
  Decl "SubFactor16" (Some (Bin Osub (Bin Omul (Call vec4__index_const <<Call mat4__index_const <<Var "m"; UInt 1>>; UInt 0>>) (Call vec4__index_const
    <<Call mat4__index_const <<Var "m"; UInt 2>>; UInt 3>>)) (Bin Omul (Call vec4__index_const <<Call mat4__index_const <<Var "m"; UInt 2>>; UInt 0>>)
    (Call vec4__index_const <<Call mat4__index_const <<Var "m"; UInt 1>>; UInt 3>>))));;
  Decl "SubFactor17" (Some (Bin Osub (Bin Omul (Call vec4__index_const <<Call mat4__index_const <<Var "m"; UInt 1>>; UInt 0>>) (Call vec4__index_const
    <<Call mat4__index_const <<Var "m"; UInt 2>>; UInt 2>>)) (Bin Omul (Call vec4__index_const <<Call mat4__index_const <<Var "m"; UInt 2>>; UInt 0>>)
    (Call vec4__index_const <<Call mat4__index_const <<Var "m"; UInt 1>>; UInt 2>>))));;
  Decl "SubFactor18" (Some (Bin Osub (Bin Omul (Call vec4__index_const <<Call mat4__index_const <<Var "m"; UInt 1>>; UInt 0>>) (Call vec4__index_const
    <<Call mat4__index_const <<Var "m"; UInt 2>>; UInt 1>>)) (Bin Omul (Call vec4__index_const <<Call mat4__index_const <<Var "m"; UInt 2>>; UInt 0>>)
    (Call vec4__index_const <<Call mat4__index_const <<Var "m"; UInt 1>>; UInt 1>>))));;
  Decl "Inverse" (Some (Call mat4__default ENil));;
  Assign (LIdx vec4__index (LIdx mat4__index (LVar "Inverse") (UInt 0)) (UInt 0)) (Un Oplus (Bin Oadd (Bin Osub (Bin Omul (Call vec4__index_const <<Call
    mat4__index_const <<Var "m"; UInt 1>>; UInt 1>>) (Var "SubFactor00")) (Bin Omul (Call vec4__index_const <<Call mat4__index_const <<Var "m"; UInt
    1>>; UInt 2>>) (Var "SubFactor01"))) (Bin Omul (Call vec4__index_const <<Call mat4__index_const <<Var "m"; UInt 1>>; UInt 3>>) (Var
    "SubFactor02"))));;
  Assign (LIdx vec4__index (LIdx mat4__index (LVar "Inverse") (UInt 0)) (UInt 1)) (Un Oneg (Bin Oadd (Bin Osub (Bin Omul (Call vec4__index_const <<Call
    mat4__index_const <<Var "m"; UInt 1>>; UInt 0>>) (Var "SubFactor00")) (Bin Omul (Call vec4__index_const <<Call mat4__index_const <<Var "m"; UInt
    1>>; UInt 2>>) (Var "SubFactor03"))) (Bin Omul (Call vec4__index_const <<Call mat4__index_const <<Var "m"; UInt 1>>; UInt 3>>) (Var
    "SubFactor04"))));;
  Assign (LIdx vec4__index (LIdx mat4__index (LVar "Inverse") (UInt 0)) (UInt 2)) (Un Oplus (Bin Oadd (Bin Osub (Bin Omul (Call vec4__index_const <<Call
    mat4__index_const <<Var "m"; UInt 1>>; UInt 0>>) (Var "SubFactor01")) (Bin Omul (Call vec4__index_const <<Call mat4__index_const <<Var "m"; UInt
    1>>; UInt 1>>) (Var "SubFactor03"))) (Bin Omul (Call vec4__index_const <<Call mat4__index_const <<Var "m"; UInt 1>>; UInt 3>>) (Var
    "SubFactor05"))));;
  Assign (LIdx vec4__index (LIdx mat4__index (LVar "Inverse") (UInt 0)) (UInt 3)) (Un Oneg (Bin Oadd (Bin Osub (Bin Omul (Call vec4__index_const <<Call
    mat4__index_const <<Var "m"; UInt 1>>; UInt 0>>) (Var "SubFactor02")) (Bin Omul (Call vec4__index_const <<Call mat4__index_const <<Var "m"; UInt
    1>>; UInt 1>>) (Var "SubFactor04"))) (Bin Omul (Call vec4__index_const <<Call mat4__index_const <<Var "m"; UInt 1>>; UInt 2>>) (Var
    "SubFactor05"))));;
  Assign (LIdx vec4__index (LIdx mat4__index (LVar "Inverse") (UInt 1)) (UInt 0)) (Un Oneg (Bin Oadd (Bin Osub (Bin Omul (Call vec4__index_const <<Call
    mat4__index_const <<Var "m"; UInt 0>>; UInt 1>>) (Var "SubFactor00")) (Bin Omul (Call vec4__index_const <<Call mat4__index_const <<Var "m"; UInt
    0>>; UInt 2>>) (Var "SubFactor01"))) (Bin Omul (Call vec4__index_const <<Call mat4__index_const <<Var "m"; UInt 0>>; UInt 3>>) (Var
    "SubFactor02"))));;
  Assign (LIdx vec4__index (LIdx mat4__index (LVar "Inverse") (UInt 1)) (UInt 1)) (Un Oplus (Bin Oadd (Bin Osub (Bin Omul (Call vec4__index_const <<Call
    mat4__index_const <<Var "m"; UInt 0>>; UInt 0>>) (Var "SubFactor00")) (Bin Omul (Call vec4__index_const <<Call mat4__index_const <<Var "m"; UInt
    0>>; UInt 2>>) (Var "SubFactor03"))) (Bin Omul (Call vec4__index_const <<Call mat4__index_const <<Var "m"; UInt 0>>; UInt 3>>) (Var
    "SubFactor04"))));;
  Assign (LIdx vec4__index (LIdx mat4__index (LVar "Inverse") (UInt 1)) (UInt 2)) (Un Oneg (Bin Oadd (Bin Osub (Bin Omul (Call vec4__index_const <<Call
    mat4__index_const <<Var "m"; UInt 0>>; UInt 0>>) (Var "SubFactor01")) (Bin Omul (Call vec4__index_const <<Call mat4__index_const <<Var "m"; UInt
    0>>; UInt 1>>) (Var "SubFactor03"))) (Bin Omul (Call vec4__index_const <<Call mat4__index_const <<Var "m"; UInt 0>>; UInt 3>>) (Var
    "SubFactor05"))));;
  Assign (LIdx vec4__index (LIdx mat4__index (LVar "Inverse") (UInt 1)) (UInt 3)) (Un Oplus (Bin Oadd (Bin Osub (Bin Omul (Call vec4__index_const <<Call
    mat4__index_const <<Var "m"; UInt 0>>; UInt 0>>) (Var "SubFactor02")) (Bin Omul (Call vec4__index_const <<Call mat4__index_const <<Var "m"; UInt
    0>>; UInt 1>>) (Var "SubFactor04"))) (Bin Omul (Call vec4__index_const <<Call mat4__index_const <<Var "m"; UInt 0>>; UInt 2>>) (Var
    "SubFactor05"))));;
  Assign (LIdx vec4__index (LIdx mat4__index (LVar "Inverse") (UInt 2)) (UInt 0)) (Un Oplus (Bin Oadd (Bin Osub (Bin Omul (Call vec4__index_const <<Call
    mat4__index_const <<Var "m"; UInt 0>>; UInt 1>>) (Var "SubFactor06")) (Bin Omul (Call vec4__index_const <<Call mat4__index_const <<Var "m"; UInt
    0>>; UInt 2>>) (Var "SubFactor07"))) (Bin Omul (Call vec4__index_const <<Call mat4__index_const <<Var "m"; UInt 0>>; UInt 3>>) (Var
    "SubFactor08"))));;
  Assign (LIdx vec4__index (LIdx mat4__index (LVar "Inverse") (UInt 2)) (UInt 1)) (Un Oneg (Bin Oadd (Bin Osub (Bin Omul (Call vec4__index_const <<Call
    mat4__index_const <<Var "m"; UInt 0>>; UInt 0>>) (Var "SubFactor06")) (Bin Omul (Call vec4__index_const <<Call mat4__index_const <<Var "m"; UInt
    0>>; UInt 2>>) (Var "SubFactor09"))) (Bin Omul (Call vec4__index_const <<Call mat4__index_const <<Var "m"; UInt 0>>; UInt 3>>) (Var
    "SubFactor10"))));;
  Assign (LIdx vec4__index (LIdx mat4__index (LVar "Inverse") (UInt 2)) (UInt 2)) (Un Oplus (Bin Oadd (Bin Osub (Bin Omul (Call vec4__index_const <<Call
    mat4__index_const <<Var "m"; UInt 0>>; UInt 0>>) (Var "SubFactor11")) (Bin Omul (Call vec4__index_const <<Call mat4__index_const <<Var "m"; UInt
    0>>; UInt 1>>) (Var "SubFactor09"))) (Bin Omul (Call vec4__index_const <<Call mat4__index_const <<Var "m"; UInt 0>>; UInt 3>>) (Var
    "SubFactor12"))));;
  Assign (LIdx vec4__index (LIdx mat4__index (LVar "Inverse") (UInt 2)) (UInt 3)) (Un Oneg (Bin Oadd (Bin Osub (Bin Omul (Call vec4__index_const <<Call
    mat4__index_const <<Var "m"; UInt 0>>; UInt 0>>) (Var "SubFactor08")) (Bin Omul (Call vec4__index_const <<Call mat4__index_const <<Var "m"; UInt
    0>>; UInt 1>>) (Var "SubFactor10"))) (Bin Omul (Call vec4__index_const <<Call mat4__index_const <<Var "m"; UInt 0>>; UInt 2>>) (Var
    "SubFactor12"))));;
  Assign (LIdx vec4__index (LIdx mat4__index (LVar "Inverse") (UInt 3)) (UInt 0)) (Un Oneg (Bin Oadd (Bin Osub (Bin Omul (Call vec4__index_const <<Call
    mat4__index_const <<Var "m"; UInt 0>>; UInt 1>>) (Var "SubFactor13")) (Bin Omul (Call vec4__index_const <<Call mat4__index_const <<Var "m"; UInt
    0>>; UInt 2>>) (Var "SubFactor14"))) (Bin Omul (Call vec4__index_const <<Call mat4__index_const <<Var "m"; UInt 0>>; UInt 3>>) (Var
    "SubFactor15"))));;
  Assign (LIdx vec4__index (LIdx mat4__index (LVar "Inverse") (UInt 3)) (UInt 1)) (Un Oplus (Bin Oadd (Bin Osub (Bin Omul (Call vec4__index_const <<Call
    mat4__index_const <<Var "m"; UInt 0>>; UInt 0>>) (Var "SubFactor13")) (Bin Omul (Call vec4__index_const <<Call mat4__index_const <<Var "m"; UInt
    0>>; UInt 2>>) (Var "SubFactor16"))) (Bin Omul (Call vec4__index_const <<Call mat4__index_const <<Var "m"; UInt 0>>; UInt 3>>) (Var
    "SubFactor17"))));;
  Assign (LIdx vec4__index (LIdx mat4__index (LVar "Inverse") (UInt 3)) (UInt 2)) (Un Oneg (Bin Oadd (Bin Osub (Bin Omul (Call vec4__index_const <<Call
    mat4__index_const <<Var "m"; UInt 0>>; UInt 0>>) (Var "SubFactor14")) (Bin Omul (Call vec4__index_const <<Call mat4__index_const <<Var "m"; UInt
    0>>; UInt 1>>) (Var "SubFactor16"))) (Bin Omul (Call vec4__index_const <<Call mat4__index_const <<Var "m"; UInt 0>>; UInt 3>>) (Var
    "SubFactor18"))));;
  Assign (LIdx vec4__index (LIdx mat4__index (LVar "Inverse") (UInt 3)) (UInt 3)) (Un Oplus (Bin Oadd (Bin Osub (Bin Omul (Call vec4__index_const <<Call
    mat4__index_const <<Var "m"; UInt 0>>; UInt 0>>) (Var "SubFactor15")) (Bin Omul (Call vec4__index_const <<Call mat4__index_const <<Var "m"; UInt
    0>>; UInt 1>>) (Var "SubFactor17"))) (Bin Omul (Call vec4__index_const <<Call mat4__index_const <<Var "m"; UInt 0>>; UInt 2>>) (Var
    "SubFactor18"))));;
  Decl "Determinant" (Some (Bin Oadd (Bin Oadd (Bin Oadd (Bin Omul (Un Oplus (Call vec4__index_const <<Call mat4__index_const <<Var "m"; UInt 0>>; UInt
    0>>)) (Read (LIdx vec4__index (LIdx mat4__index (LVar "Inverse") (UInt 0)) (UInt 0)))) (Bin Omul (Call vec4__index_const <<Call mat4__index_const
    <<Var "m"; UInt 0>>; UInt 1>>) (Read (LIdx vec4__index (LIdx mat4__index (LVar "Inverse") (UInt 0)) (UInt 1))))) (Bin Omul (Call vec4__index_const
    <<Call mat4__index_const <<Var "m"; UInt 0>>; UInt 2>>) (Read (LIdx vec4__index (LIdx mat4__index (LVar "Inverse") (UInt 0)) (UInt 2))))) (Bin
    Omul (Call vec4__index_const <<Call mat4__index_const <<Var "m"; UInt 0>>; UInt 3>>) (Read (LIdx vec4__index (LIdx mat4__index (LVar "Inverse")
    (UInt 0)) (UInt 3))))));;
  Return (Call op_div_mat4_float <<Var "Inverse"; Var "Determinant">>)).
(** src/matrix.cpp 368-376 *)
Definition c_adjugateTranspose_mat2 : fundef fn := Fun ["m"] [Tcls Cmat2] (RVal (Tcls Cmat2)) [] (
  Decl "Adjugate" (Some (Call mat2__float_float_float_float <<Un Oplus (Read (LIdx vec2__index (LTmp (Call mat2__index_const <<Var "m"; UInt 1>>)) (UInt
    1))); Un Oneg (Read (LIdx vec2__index (LTmp (Call mat2__index_const <<Var "m"; UInt 0>>)) (UInt 1))); Un Oneg (Read (LIdx vec2__index (LTmp (Call
    mat2__index_const <<Var "m"; UInt 1>>)) (UInt 0))); Un Oplus (Read (LIdx vec2__index (LTmp (Call mat2__index_const <<Var "m"; UInt 0>>)) (UInt
    0)))>>));;
  Return (Var "Adjugate")).
(** src/matrix.cpp 378-391 *)
Definition c_adjugateTranspose_mat3 : fundef fn := Fun ["m"] [Tcls Cmat3] (RVal (Tcls Cmat3)) [] (
  Decl "Adjugate" (Some (Call mat3__no_init_t ENil));;
  Assign (LIdx vec3__index (LIdx mat3__index (LVar "Adjugate") (UInt 0)) (UInt 0)) (Un Oplus (Bin Osub (Bin Omul (Call vec3__index_const <<Call
    mat3__index_const <<Var "m"; UInt 1>>; UInt 1>>) (Call vec3__index_const <<Call mat3__index_const <<Var "m"; UInt 2>>; UInt 2>>)) (Bin Omul (Call
    vec3__index_const <<Call mat3__index_const <<Var "m"; UInt 2>>; UInt 1>>) (Call vec3__index_const <<Call mat3__index_const <<Var "m"; UInt 1>>;
    UInt 2>>))));;
  Assign (LIdx vec3__index (LIdx mat3__index (LVar "Adjugate") (UInt 0)) (UInt 1)) (Un Oneg (Bin Osub (Bin Omul (Call vec3__index_const <<Call
    mat3__index_const <<Var "m"; UInt 1>>; UInt 0>>) (Call vec3__index_const <<Call mat3__index_const <<Var "m"; UInt 2>>; UInt 2>>)) (Bin Omul (Call
    vec3__index_const <<Call mat3__index_const <<Var "m"; UInt 2>>; UInt 0>>) (Call vec3__index_const <<Call mat3__index_const <<Var "m"; UInt 1>>;
    UInt 2>>))));;
  Assign (LIdx vec3__index (LIdx mat3__index (LVar "Adjugate") (UInt 0)) (UInt 2)) (Un Oplus (Bin Osub (Bin Omul (Call vec3__index_const <<Call
    mat3__index_const <<Var "m"; UInt 1>>; UInt 0>>) (Call vec3__index_const <<Call mat3__index_const <<Var "m"; UInt 2>>; UInt 1>>)) (Bin Omul (Call
    vec3__index_const <<Call mat3__index_const <<Var "m"; UInt 2>>; UInt 0>>) (Call vec3__index_const <<Call mat3__index_const <<Var "m"; UInt 1>>;
    UInt 1>>))));;
  Assign (LIdx vec3__index (LIdx mat3__index (LVar "Adjugate") (UInt 1)) (UInt 0)) (Un Oneg (Bin Osub (Bin Omul (Call vec3__index_const <<Call
    mat3__index_const <<Var "m"; UInt 0>>; UInt 1>>) (Call vec3__index_const <<Call mat3__index_const <<Var "m"; UInt 2>>; UInt 2>>)) (Bin Omul (Call
    vec3__index_const <<Call mat3__index_const <<Var "m"; UInt 2>>; UInt 1>>) (Call vec3__index_const <<Call mat3__index_const <<Var "m"; UInt 0>>;
    UInt 2>>))));;
  Assign (LIdx vec3__index (LIdx mat3__index (LVar "Adjugate") (UInt 1)) (UInt 1)) (Un Oplus (Bin Osub (Bin Omul (Call vec3__index_const <<Call
    mat3__index_const <<Var "m"; UInt 0>>; UInt 0>>) (Call vec3__index_const <<Call mat3__index_const <<Var "m"; UInt 2>>; UInt 2>>)) (Bin Omul (Call
    vec3__index_const <<Call mat3__index_const <<Var "m"; UInt 2>>; UInt 0>>) (Call vec3__index_const <<Call mat3__index_const <<Var "m"; UInt 0>>;
    UInt 2>>))));;
  Assign (LIdx vec3__index (LIdx mat3__index (LVar "Adjugate") (UInt 1)) (UInt 2)) (Un Oneg (Bin Osub (Bin Omul (Call vec3__index_const <<Call
    mat3__index_const <<Var "m"; UInt 0>>; UInt 0>>) (Call vec3__index_const <<Call mat3__index_const <<Var "m"; UInt 2>>; UInt 1>>)) (Bin Omul (Call
    vec3__index_const <<Call mat3__index_const <<Var "m"; UInt 2>>; UInt 0>>) (Call vec3__index_const <<Call mat3__index_const <<Var "m"; UInt 0>>;
    UInt 1>>))));;
  Assign (LIdx vec3__index (LIdx mat3__index (LVar "Adjugate") (UInt 2)) (UInt 0)) (Un Oplus (Bin Osub (Bin Omul (Call vec3__index_const <<Call
    mat3__index_const <<Var "m"; UInt 0>>; UInt 1>>) (Call vec3__index_const <<Call mat3__index_const <<Var "m"; UInt 1>>; UInt 2>>)) (Bin Omul (Call
    vec3__index_const <<Call mat3__index_const <<Var "m"; UInt 1>>; UInt 1>>) (Call vec3__index_const <<Call mat3__index_const <<Var "m"; UInt 0>>;
    UInt 2>>))));;
  Assign (LIdx vec3__index (LIdx mat3__index (LVar "Adjugate") (UInt 2)) (UInt 1)) (Un Oneg (Bin Osub (Bin Omul (Call vec3__index_const <<Call
    mat3__index_const <<Var "m"; UInt 0>>; UInt 0>>) (Call vec3__index_const <<Call mat3__index_const <<Var "m"; UInt 1>>; UInt 2>>)) (Bin Omul (Call
    vec3__index_const <<Call mat3__index_const <<Var "m"; UInt 1>>; UInt 0>>) (Call vec3__index_const <<Call mat3__index_const <<Var "m"; UInt 0>>;
    UInt 2>>))));;
  Assign (LIdx vec3__index (LIdx mat3__index (LVar "Adjugate") (UInt 2)) (UInt 2)) (Un Oplus (Bin Osub (Bin Omul (Call vec3__index_const <<Call
    mat3__index_const <<Var "m"; UInt 0>>; UInt 0>>) (Call vec3__index_const <<Call mat3__index_const <<Var "m"; UInt 1>>; UInt 1>>)) (Bin Omul (Call
    vec3__index_const <<Call mat3__index_const <<Var "m"; UInt 1>>; UInt 0>>) (Call vec3__index_const <<Call mat3__index_const <<Var "m"; UInt 0>>;
    UInt 1>>))));;
  Return (Var "Adjugate")).
(** src/matrix.cpp 393-437 *)
Definition c_adjugateTranspose_mat4 : fundef fn := Fun ["m"] [Tcls Cmat4] (RVal (Tcls Cmat4)) [] (
  Decl "SubFactor00" (Some (Bin Osub (Bin Omul (Call vec4__index_const <<Call mat4__index_const <<Var "m"; UInt 2>>; UInt 2>>) (Call vec4__index_const
    <<Call mat4__index_const <<Var "m"; UInt 3>>; UInt 3>>)) (Bin Omul (Call vec4__index_const <<Call mat4__index_const <<Var "m"; UInt 3>>; UInt 2>>)
    (Call vec4__index_const <<Call mat4__index_const <<Var "m"; UInt 2>>; UInt 3>>))));;
  Decl "SubFactor01" (Some (Bin Osub (Bin Omul (Call vec4__index_const <<Call mat4__index_const <<Var "m"; UInt 2>>; UInt 1>>) (Call vec4__index_const
    <<Call mat4__index_const <<Var "m"; UInt 3>>; UInt 3>>)) (Bin Omul (Call vec4__index_const <<Call mat4__index_const <<Var "m"; UInt 3>>; UInt 1>>)
    (Call vec4__index_const <<Call mat4__index_const <<Var "m"; UInt 2>>; UInt 3>>))));;
  Decl "SubFactor02" (Some (Bin Osub (Bin Omul (Call vec4__index_const <<Call mat4__index_const <<Var "m"; UInt 2>>; UInt 1>>) (Call vec4__index_const
    <<Call mat4__index_const <<Var "m"; UInt 3>>; UInt 2>>)) (Bin Omul (Call vec4__index_const <<Call mat4__index_const <<Var "m"; UInt 3>>; UInt 1>>)
    (Call vec4__index_const <<Call mat4__index_const <<Var "m"; UInt 2>>; UInt 2>>))));;
  Decl "SubFactor03" (Some (Bin Osub (Bin Omul (Call vec4__index_const <<Call mat4__index_const <<Var "m"; UInt 2>>; UInt 0>>) (Call vec4__index_const
    <<Call mat4__index_const <<Var "m"; UInt 3>>; UInt 3>>)) (Bin Omul (Call vec4__index_const <<Call mat4__index_const <<Var "m"; UInt 3>>; UInt 0>>)
    (Call vec4__index_const <<Call mat4__index_const <<Var "m"; UInt 2>>; UInt 3>>))));;
  Decl "SubFactor04" (Some (Bin Osub (Bin Omul (Call vec4__index_const <<Call mat4__index_const <<Var "m"; UInt 2>>; UInt 0>>) (Call vec4__index_const
    <<Call mat4__index_const <<Var "m"; UInt 3>>; UInt 2>>)) (Bin Omul (Call vec4__index_const <<Call mat4__index_const <<Var "m"; UInt 3>>; UInt 0>>)
    (Call vec4__index_const <<Call mat4__index_const <<Var "m"; UInt 2>>; UInt 2>>))));;
  Decl "SubFactor05" (Some (Bin Osub (Bin Omul (Call vec4__index_const <<Call mat4__index_const <<Var "m"; UInt 2>>; UInt 0>>) (Call vec4__index_const
    <<Call mat4__index_const <<Var "m"; UInt 3>>; UInt 1>>)) (Bin Omul (Call vec4__index_const <<Call mat4__index_const <<Var "m"; UInt 3>>; UInt 0>>)
    (Call vec4__index_const <<Call mat4__index_const <<Var "m"; UInt 2>>; UInt 1>>))));;
  Decl "SubFactor06" (Some (Bin Osub (Bin Omul (Call vec4__index_const <<Call mat4__index_const <<Var "m"; UInt 1>>; UInt 2>>) (Call vec4__index_const
    <<Call mat4__index_const <<Var "m"; UInt 3>>; UInt 3>>)) (Bin Omul (Call vec4__index_const <<Call mat4__index_const <<Var "m"; UInt 3>>; UInt 2>>)
    (Call vec4__index_const <<Call mat4__index_const <<Var "m"; UInt 1>>; UInt 3>>))));;
  Decl "SubFactor07" (Some (Bin Osub (Bin Omul (Call vec4__index_const <<Call mat4__index_const <<Var "m"; UInt 1>>; UInt 1>>) (Call vec4__index_const
    <<Call mat4__index_const <<Var "m"; UInt 3>>; UInt 3>>)) (Bin Omul (Call vec4__index_const <<Call mat4__index_const <<Var "m"; UInt 3>>; UInt 1>>)
    (Call vec4__index_const <<Call mat4__index_const <<Var "m"; UInt 1>>; UInt 3>>))));;
  Decl "SubFactor08" (Some (Bin Osub (Bin Omul (Call vec4__index_const <<Call mat4__index_const <<Var "m"; UInt 1>>; UInt 1>>) (Call vec4__index_const
    <<Call mat4__index_const <<Var "m"; UInt 3>>; UInt 2>>)) (Bin Omul (Call vec4__index_const <<Call mat4__index_const <<Var "m"; UInt 3>>; UInt 1>>)
    (Call vec4__index_const <<Call mat4__index_const <<Var "m"; UInt 1>>; UInt 2>>))));;
  Decl "SubFactor09" (Some (Bin Osub (Bin Omul (Call vec4__index_const <<Call mat4__index_const <<Var "m"; UInt 1>>; UInt 0>>) (Call vec4__index_const
    <<Call mat4__index_const <<Var "m"; UInt 3>>; UInt 3>>)) (Bin Omul (Call vec4__index_const <<Call mat4__index_const <<Var "m"; UInt 3>>; UInt 0>>)
    (Call vec4__index_const <<Call mat4__index_const <<Var "m"; UInt 1>>; UInt 3>>))));;
  Decl "SubFactor10" (Some (Bin Osub (Bin Omul (Call vec4__index_const <<Call mat4__index_const <<Var "m"; UInt 1>>; UInt 0>>) (Call vec4__index_const
    <<Call mat4__index_const <<Var "m"; UInt 3>>; UInt 2>>)) (Bin Omul (Call vec4__index_const <<Call mat4__index_const <<Var "m"; UInt 3>>; UInt 0>>)
    (Call vec4__index_const <<Call mat4__index_const <<Var "m"; UInt 1>>; UInt 2>>))));;
  Decl "SubFactor11" (Some (Bin Osub (Bin Omul (Call vec4__index_const <<Call mat4__index_const <<Var "m"; UInt 1>>; UInt 1>>) (Call vec4__index_const
    <<Call mat4__index_const <<Var "m"; UInt 3>>; UInt 3>>)) (Bin Omul (Call vec4__index_const <<Call mat4__index_const <<Var "m"; UInt 3>>; UInt 1>>)
    (Call vec4__index_const <<Call mat4__index_const <<Var "m"; UInt 1>>; UInt 3>>))));;
  Decl "SubFactor12" (Some (Bin Osub (Bin Omul (Call vec4__index_const <<Call mat4__index_const <<Var "m"; UInt 1>>; UInt 0>>) (Call vec4__index_const
    <<Call mat4__index_const <<Var "m"; UInt 3>>; UInt 1>>)) (Bin Omul (Call vec4__index_const <<Call mat4__index_const <<Var "m"; UInt 3>>; UInt 0>>)
    (Call vec4__index_const <<Call mat4__index_const <<Var "m"; UInt 1>>; UInt 1>>))));;
  Decl "SubFactor13" (Some (Bin Osub (Bin Omul (Call vec4__index_const <<Call mat4__index_const <<Var "m"; UInt 1>>; UInt 2>>) (Call vec4__index_const
    <<Call mat4__index_const <<Var "m"; UInt 2>>; UInt 3>>)) (Bin Omul (Call vec4__index_const <<Call mat4__index_const <<Var "m"; UInt 2>>; UInt 2>>)
    (Call vec4__index_const <<Call mat4__index_const <<Var "m"; UInt 1>>; UInt 3>>))));;
  Decl "SubFactor14" (Some (Bin Osub (Bin Omul (Call vec4__index_const <<Call mat4__index_const <<Var "m"; UInt 1>>; UInt 1>>) (Call vec4__index_const
    <<Call mat4__index_const <<Var "m"; UInt 2>>; UInt 3>>)) (Bin Omul (Call vec4__index_const <<Call mat4__index_const <<Var "m"; UInt 2>>; UInt 1>>)
    (Call vec4__index_const <<Call mat4__index_const <<Var "m"; UInt 1>>; UInt 3>>))));;
  Decl "SubFactor15" (Some (Bin Osub (Bin Omul (Call vec4__index_const <<Call mat4__index_const <<Var "m"; UInt 1>>; UInt 1>>) (Call vec4__index_const
    <<Call mat4__index_const <<Var "m"; UInt 2>>; UInt 2>>)) (Bin Omul (Call vec4__index_const <<Call mat4__index_const <<Var "m"; UInt 2>>; UInt 1>>)
    (Call vec4__index_const <<Call mat4__index_const <<Var "m"; UInt 1>>; UInt 2>>))));;
  Decl "SubFactor16" (Some (Bin Osub (Bin Omul (Call vec4__index_const <<Call mat4__index_const <<Var "m"; UInt 1>>; UInt 0>>) (Call vec4__index_const
    <<Call mat4__index_const <<Var "m"; UInt 2>>; UInt 3>>)) (Bin Omul (Call vec4__index_const <<Call mat4__index_const <<Var "m"; UInt 2>>; UInt 0>>)
    (Call vec4__index_const <<Call mat4__index_const <<Var "m"; UInt 1>>; UInt 3>>))));;
  Decl "SubFactor17" (Some (Bin Osub (Bin Omul (Call vec4__index_const <<Call mat4__index_const <<Var "m"; UInt 1>>; UInt 0>>) (Call vec4__index_const
    <<Call mat4__index_const <<Var "m"; UInt 2>>; UInt 2>>)) (Bin Omul (Call vec4__index_const <<Call mat4__index_const <<Var "m"; UInt 2>>; UInt 0>>)
    (Call vec4__index_const <<Call mat4__index_const <<Var "m"; UInt 1>>; UInt 2>>))));;
  Decl "SubFactor18" (Some (Bin Osub (Bin Omul (Call vec4__index_const <<Call mat4__index_const <<Var "m"; UInt 1>>; UInt 0>>) (Call vec4__index_const
    <<Call mat4__index_const <<Var "m"; UInt 2>>; UInt 1>>)) (Bin Omul (Call vec4__index_const <<Call mat4__index_const <<Var "m"; UInt 2>>; UInt 0>>)
    (Call vec4__index_const <<Call mat4__index_const <<Var "m"; UInt 1>>; UInt 1>>))));;
  Decl "Adjugate" (Some (Call mat4__no_init_t ENil));;
  Assign (LIdx vec4__index (LIdx mat4__index (LVar "Adjugate") (UInt 0)) (UInt 0)) (Un Oplus (Bin Oadd (Bin Osub (Bin Omul (Call vec4__index_const
    <<Call mat4__index_const <<Var "m"; UInt 1>>; UInt 1>>) (Var "SubFactor00")) (Bin Omul (Call vec4__index_const <<Call mat4__index_const <<Var "m";
    UInt 1>>; UInt 2>>) (Var "SubFactor01"))) (Bin Omul (Call vec4__index_const <<Call mat4__index_const <<Var "m"; UInt 1>>; UInt 3>>) (Var
    "SubFactor02"))));;
  Assign (LIdx vec4__index (LIdx mat4__index (LVar "Adjugate") (UInt 0)) (UInt 1)) (Un Oneg (Bin Oadd (Bin Osub (Bin Omul (Call vec4__index_const <<Call
    mat4__index_const <<Var "m"; UInt 1>>; UInt 0>>) (Var "SubFactor00")) (Bin Omul (Call vec4__index_const <<Call mat4__index_const <<Var "m"; UInt
    1>>; UInt 2>>) (Var "SubFactor03"))) (Bin Omul (Call vec4__index_const <<Call mat4__index_const <<Var "m"; UInt 1>>; UInt 3>>) (Var
    "SubFactor04"))));;
  Assign (LIdx vec4__index (LIdx mat4__index (LVar "Adjugate") (UInt 0)) (UInt 2)) (Un Oplus (Bin Oadd (Bin Osub (Bin Omul (Call vec4__index_const
    <<Call mat4__index_const <<Var "m"; UInt 1>>; UInt 0>>) (Var "SubFactor01")) (Bin Omul (Call vec4__index_const <<Call mat4__index_const <<Var "m";
    UInt 1>>; UInt 1>>) (Var "SubFactor03"))) (Bin Omul (Call vec4__index_const <<Call mat4__index_const <<Var "m"; UInt 1>>; UInt 3>>) (Var
    "SubFactor05"))));;
  Assign (LIdx vec4__index (LIdx mat4__index (LVar "Adjugate") (UInt 0)) (UInt 3)) (Un Oneg (Bin Oadd (Bin Osub (Bin Omul (Call vec4__index_const <<Call
    mat4__index_const <<Var "m"; UInt 1>>; UInt 0>>) (Var "SubFactor02")) (Bin Omul (Call vec4__index_const <<Call mat4__index_const <<Var "m"; UInt
    1>>; UInt 1>>) (Var "SubFactor04"))) (Bin Omul (Call vec4__index_const <<Call mat4__index_const <<Var "m"; UInt 1>>; UInt 2>>) (Var
    "SubFactor05"))));;
  Assign (LIdx vec4__index (LIdx mat4__index (LVar "Adjugate") (UInt 1)) (UInt 0)) (Un Oneg (Bin Oadd (Bin Osub (Bin Omul (Call vec4__index_const <<Call
    mat4__index_const <<Var "m"; UInt 0>>; UInt 1>>) (Var "SubFactor00")) (Bin Omul (Call vec4__index_const <<Call mat4__index_const <<Var "m"; UInt
    0>>; UInt 2>>) (Var "SubFactor01"))) (Bin Omul (Call vec4__index_const <<Call mat4__index_const <<Var "m"; UInt 0>>; UInt 3>>) (Var
    "SubFactor02"))));;
  Assign (LIdx vec4__index (LIdx mat4__index (LVar "Adjugate") (UInt 1)) (UInt 1)) (Un Oplus (Bin Oadd (Bin Osub (Bin Omul (Call vec4__index_const
    <<Call mat4__index_const <<Var "m"; UInt 0>>; UInt 0>>) (Var "SubFactor00")) (Bin Omul (Call vec4__index_const <<Call mat4__index_const <<Var "m";
    UInt 0>>; UInt 2>>) (Var "SubFactor03"))) (Bin Omul (Call vec4__index_const <<Call mat4__index_const <<Var "m"; UInt 0>>; UInt 3>>) (Var
    "SubFactor04"))));;
  Assign (LIdx vec4__index (LIdx mat4__index (LVar "Adjugate") (UInt 1)) (UInt 2)) (Un Oneg (Bin Oadd (Bin Osub (Bin Omul (Call vec4__index_const <<Call
    mat4__index_const <<Var "m"; UInt 0>>; UInt 0>>) (Var "SubFactor01")) (Bin Omul (Call vec4__index_const <<Call mat4__index_const <<Var "m"; UInt
    0>>; UInt 1>>) (Var "SubFactor03"))) (Bin Omul (Call vec4__index_const <<Call mat4__index_const <<Var "m"; UInt 0>>; UInt 3>>) (Var
    "SubFactor05"))));;
  Assign (LIdx vec4__index (LIdx mat4__index (LVar "Adjugate") (UInt 1)) (UInt 3)) (Un Oplus (Bin Oadd (Bin Osub (Bin Omul (Call vec4__index_const
    <<Call mat4__index_const <<Var "m"; UInt 0>>; UInt 0>>) (Var "SubFactor02")) (Bin Omul (Call vec4__index_const <<Call mat4__index_const <<Var "m";
    UInt 0>>; UInt 1>>) (Var "SubFactor04"))) (Bin Omul (Call vec4__index_const <<Call mat4__index_const <<Var "m"; UInt 0>>; UInt 2>>) (Var
    "SubFactor05"))));;
  Assign (LIdx vec4__index (LIdx mat4__index (LVar "Adjugate") (UInt 2)) (UInt 0)) (Un Oplus (Bin Oadd (Bin Osub (Bin Omul (Call vec4__index_const
    <<Call mat4__index_const <<Var "m"; UInt 0>>; UInt 1>>) (Var "SubFactor06")) (Bin Omul (Call vec4__index_const <<Call mat4__index_const <<Var "m";
    UInt 0>>; UInt 2>>) (Var "SubFactor07"))) (Bin Omul (Call vec4__index_const <<Call mat4__index_const <<Var "m"; UInt 0>>; UInt 3>>) (Var
    "SubFactor08"))));;
  Assign (LIdx vec4__index (LIdx mat4__index (LVar "Adjugate") (UInt 2)) (UInt 1)) (Un Oneg (Bin Oadd (Bin Osub (Bin Omul (Call vec4__index_const <<Call
    mat4__index_const <<Var "m"; UInt 0>>; UInt 0>>) (Var "SubFactor06")) (Bin Omul (Call vec4__index_const <<Call mat4__index_const <<Var "m"; UInt
    0>>; UInt 2>>) (Var "SubFactor09"))) (Bin Omul (Call vec4__index_const <<Call mat4__index_const <<Var "m"; UInt 0>>; UInt 3>>) (Var
    "SubFactor10"))));;
  Assign (LIdx vec4__index (LIdx mat4__index (LVar "Adjugate") (UInt 2)) (UInt 2)) (Un Oplus (Bin Oadd (Bin Osub (Bin Omul (Call vec4__index_const
    <<Call mat4__index_const <<Var "m"; UInt 0>>; UInt 0>>) (Var "SubFactor11")) (Bin Omul (Call vec4__index_const <<Call mat4__index_const <<Var "m";
    UInt 0>>; UInt 1>>) (Var "SubFactor09"))) (Bin Omul (Call vec4__index_const <<Call mat4__index_const <<Var "m"; UInt 0>>; UInt 3>>) (Var
    "SubFactor12"))));;
  Assign (LIdx vec4__index (LIdx mat4__index (LVar "Adjugate") (UInt 2)) (UInt 3)) (Un Oneg (Bin Oadd (Bin Osub (Bin Omul (Call vec4__index_const <<Call
    mat4__index_const <<Var "m"; UInt 0>>; UInt 0>>) (Var "SubFactor08")) (Bin Omul (Call vec4__index_const <<Call mat4__index_const <<Var "m"; UInt
    0>>; UInt 1>>) (Var "SubFactor10"))) (Bin Omul (Call vec4__index_const <<Call mat4__index_const <<Var "m"; UInt 0>>; UInt 2>>) (Var
    "SubFactor12"))));;
  Assign (LIdx vec4__index (LIdx mat4__index (LVar "Adjugate") (UInt 3)) (UInt 0)) (Un Oneg (Bin Oadd (Bin Osub (Bin Omul (Call vec4__index_const <<Call
    mat4__index_const <<Var "m"; UInt 0>>; UInt 1>>) (Var "SubFactor13")) (Bin Omul (Call vec4__index_const <<Call mat4__index_const <<Var "m"; UInt
    0>>; UInt 2>>) (Var "SubFactor14"))) (Bin Omul (Call vec4__index_const <<Call mat4__index_const <<Var "m"; UInt 0>>; UInt 3>>) (Var
    "SubFactor15"))));;
  Assign (LIdx vec4__index (LIdx mat4__index (LVar "Adjugate") (UInt 3)) (UInt 1)) (Un Oplus (Bin Oadd (Bin Osub (Bin Omul (Call vec4__index_const
    <<Call mat4__index_const <<Var "m"; UInt 0>>; UInt 0>>) (Var "SubFactor13")) (Bin Omul (Call vec4__index_const <<Call mat4__index_const <<Var "m";
    UInt 0>>; UInt 2>>) (Var "SubFactor16"))) (Bin Omul (Call vec4__index_const <<Call mat4__index_const <<Var "m"; UInt 0>>; UInt 3>>) (Var
    "SubFactor17"))));;
  Assign (LIdx vec4__index (LIdx mat4__index (LVar "Adjugate") (UInt 3)) (UInt 2)) (Un Oneg (Bin Oadd (Bin Osub (Bin Omul (Call vec4__index_const <<Call
    mat4__index_const <<Var "m"; UInt 0>>; UInt 0>>) (Var "SubFactor14")) (Bin Omul (Call vec4__index_const <<Call mat4__index_const <<Var "m"; UInt
    0>>; UInt 1>>) (Var "SubFactor16"))) (Bin Omul (Call vec4__index_const <<Call mat4__index_const <<Var "m"; UInt 0>>; UInt 3>>) (Var
    "SubFactor18"))));;
  Assign (LIdx vec4__index (LIdx mat4__index (LVar "Adjugate") (UInt 3)) (UInt 3)) (Un Oplus (Bin Oadd (Bin Osub (Bin Omul (Call vec4__index_const
    <<Call mat4__index_const <<Var "m"; UInt 0>>; UInt 0>>) (Var "SubFactor15")) (Bin Omul (Call vec4__index_const <<Call mat4__index_const <<Var "m";
    UInt 0>>; UInt 1>>) (Var "SubFactor17"))) (Bin Omul (Call vec4__index_const <<Call mat4__index_const <<Var "m"; UInt 0>>; UInt 2>>) (Var
    "SubFactor18"))));;
  Return (Var "Adjugate")).

(** ** src/matrix_transform.cpp *)
(** src/matrix_transform.cpp 13-18 *)
Definition c_translate_mat4_vec3 : fundef fn := Fun ["m"; "v"] [Tcls Cmat4; Tcls Cvec3] (RVal (Tcls Cmat4)) [] (
  Decl "Result" (Some (Var "m"));;
  Assign (LIdx mat4__index (LVar "Result") (UInt 3)) (Call op_add_vec4_vec4 <<Call op_add_vec4_vec4 <<Call op_add_vec4_vec4 <<Call op_mul_vec4_float
    <<Call mat4__index_const <<Var "m"; UInt 0>>; Call vec3__index_const <<Var "v"; UInt 0>>>>; Call op_mul_vec4_float <<Call mat4__index_const <<Var
    "m"; UInt 1>>; Call vec3__index_const <<Var "v"; UInt 1>>>>>>; Call op_mul_vec4_float <<Call mat4__index_const <<Var "m"; UInt 2>>; Call
    vec3__index_const <<Var "v"; UInt 2>>>>>>; Call mat4__index_const <<Var "m"; UInt 3>>>>);;
  Return (Var "Result")).
(** src/matrix_transform.cpp 20-48 *)
Definition c_rotate_mat4_float_vec3 : fundef fn := Fun ["m"; "angle"; "v"] [Tcls Cmat4; Tfloat; Tcls Cvec3] (RVal (Tcls Cmat4)) [] (
  Decl "a" (Some (Var "angle"));;
  Decl "c" (Some (Call cos_float <<Var "a">>));;
  Decl "s" (Some (Call sin_float <<Var "a">>));;
  Decl "axis" (Some (Call normalize_vec3 <<Var "v">>));;
  Decl "temp" (Some (Call op_mul_float_vec3 <<Bin Osub (Lit 1 0) (Var "c"); Var "axis">>));;
  Decl "Rotate" (Some (Call mat3__no_init_t ENil));;
  Assign (LIdx vec3__index (LIdx mat3__index (LVar "Rotate") (UInt 0)) (UInt 0)) (Bin Oadd (Var "c") (Bin Omul (Read (LIdx vec3__index (LVar "temp")
    (UInt 0))) (Read (LIdx vec3__index (LVar "axis") (UInt 0)))));;
  Assign (LIdx vec3__index (LIdx mat3__index (LVar "Rotate") (UInt 0)) (UInt 1)) (Bin Oadd (Bin Omul (Read (LIdx vec3__index (LVar "temp") (UInt 0)))
    (Read (LIdx vec3__index (LVar "axis") (UInt 1)))) (Bin Omul (Var "s") (Read (LIdx vec3__index (LVar "axis") (UInt 2)))));;
  Assign (LIdx vec3__index (LIdx mat3__index (LVar "Rotate") (UInt 0)) (UInt 2)) (Bin Osub (Bin Omul (Read (LIdx vec3__index (LVar "temp") (UInt 0)))
    (Read (LIdx vec3__index (LVar "axis") (UInt 2)))) (Bin Omul (Var "s") (Read (LIdx vec3__index (LVar "axis") (UInt 1)))));;
  Assign (LIdx vec3__index (LIdx mat3__index (LVar "Rotate") (UInt 1)) (UInt 0)) (Bin Osub (Bin Omul (Read (LIdx vec3__index (LVar "temp") (UInt 1)))
    (Read (LIdx vec3__index (LVar "axis") (UInt 0)))) (Bin Omul (Var "s") (Read (LIdx vec3__index (LVar "axis") (UInt 2)))));;
  Assign (LIdx vec3__index (LIdx mat3__index (LVar "Rotate") (UInt 1)) (UInt 1)) (Bin Oadd (Var "c") (Bin Omul (Read (LIdx vec3__index (LVar "temp")
    (UInt 1))) (Read (LIdx vec3__index (LVar "axis") (UInt 1)))));;
  Assign (LIdx vec3__index (LIdx mat3__index (LVar "Rotate") (UInt 1)) (UInt 2)) (Bin Oadd (Bin Omul (Read (LIdx vec3__index (LVar "temp") (UInt 1)))
    (Read (LIdx vec3__index (LVar "axis") (UInt 2)))) (Bin Omul (Var "s") (Read (LIdx vec3__index (LVar "axis") (UInt 0)))));;
  Assign (LIdx vec3__index (LIdx mat3__index (LVar "Rotate") (UInt 2)) (UInt 0)) (Bin Oadd (Bin Omul (Read (LIdx vec3__index (LVar "temp") (UInt 2)))
    (Read (LIdx vec3__index (LVar "axis") (UInt 0)))) (Bin Omul (Var "s") (Read (LIdx vec3__index (LVar "axis") (UInt 1)))));;
  Assign (LIdx vec3__index (LIdx mat3__index (LVar "Rotate") (UInt 2)) (UInt 1)) (Bin Osub (Bin Omul (Read (LIdx vec3__index (LVar "temp") (UInt 2)))
    (Read (LIdx vec3__index (LVar "axis") (UInt 1)))) (Bin Omul (Var "s") (Read (LIdx vec3__index (LVar "axis") (UInt 0)))));;
  Assign (LIdx vec3__index (LIdx mat3__index (LVar "Rotate") (UInt 2)) (UInt 2)) (Bin Oadd (Var "c") (Bin Omul (Read (LIdx vec3__index (LVar "temp")
    (UInt 2))) (Read (LIdx vec3__index (LVar "axis") (UInt 2)))));;
  Decl "Result" (Some (Call mat4__no_init_t ENil));;
  Assign (LIdx mat4__index (LVar "Result") (UInt 0)) (Call op_add_vec4_vec4 <<Call op_add_vec4_vec4 <<Call op_mul_vec4_float <<Call mat4__index_const
    <<Var "m"; UInt 0>>; Read (LIdx vec3__index (LIdx mat3__index (LVar "Rotate") (UInt 0)) (UInt 0))>>; Call op_mul_vec4_float <<Call
    mat4__index_const <<Var "m"; UInt 1>>; Read (LIdx vec3__index (LIdx mat3__index (LVar "Rotate") (UInt 0)) (UInt 1))>>>>; Call op_mul_vec4_float
    <<Call mat4__index_const <<Var "m"; UInt 2>>; Read (LIdx vec3__index (LIdx mat3__index (LVar "Rotate") (UInt 0)) (UInt 2))>>>>);;
  Assign (LIdx mat4__index (LVar "Result") (UInt 1)) (Call op_add_vec4_vec4 <<Call op_add_vec4_vec4 <<Call op_mul_vec4_float <<Call mat4__index_const
    <<Var "m"; UInt 0>>; Read (LIdx vec3__index (LIdx mat3__index (LVar "Rotate") (UInt 1)) (UInt 0))>>; Call op_mul_vec4_float <<Call
    mat4__index_const <<Var "m"; UInt 1>>; Read (LIdx vec3__index (LIdx mat3__index (LVar "Rotate") (UInt 1)) (UInt 1))>>>>; Call op_mul_vec4_float
    <<Call mat4__index_const <<Var "m"; UInt 2>>; Read (LIdx vec3__index (LIdx mat3__index (LVar "Rotate") (UInt 1)) (UInt 2))>>>>);;
  Assign (LIdx mat4__index (LVar "Result") (UInt 2)) (Call op_add_vec4_vec4 <<Call op_add_vec4_vec4 <<Call op_mul_vec4_float <<Call mat4__index_const
    <<Var "m"; UInt 0>>; Read (LIdx vec3__index (LIdx mat3__index (LVar "Rotate") (UInt 2)) (UInt 0))>>; Call op_mul_vec4_float <<Call
    mat4__index_const <<Var "m"; UInt 1>>; Read (LIdx vec3__index (LIdx mat3__index (LVar "Rotate") (UInt 2)) (UInt 1))>>>>; Call op_mul_vec4_float
    <<Call mat4__index_const <<Var "m"; UInt 2>>; Read (LIdx vec3__index (LIdx mat3__index (LVar "Rotate") (UInt 2)) (UInt 2))>>>>);;
  Assign (LIdx mat4__index (LVar "Result") (UInt 3)) (Call mat4__index_const <<Var "m"; UInt 3>>);;
  Return (Var "Result")).
(** src/matrix_transform.cpp 50-58 *)
Definition c_scale_mat4_vec3 : fundef fn := Fun ["m"; "v"] [Tcls Cmat4; Tcls Cvec3] (RVal (Tcls Cmat4)) [] (
  Decl "Result" (Some (Call mat4__no_init_t ENil));;
  Assign (LIdx mat4__index (LVar "Result") (UInt 0)) (Call op_mul_vec4_float <<Call mat4__index_const <<Var "m"; UInt 0>>; Call vec3__index_const <<Var
    "v"; UInt 0>>>>);;
  Assign (LIdx mat4__index (LVar "Result") (UInt 1)) (Call op_mul_vec4_float <<Call mat4__index_const <<Var "m"; UInt 1>>; Call vec3__index_const <<Var
    "v"; UInt 1>>>>);;
  Assign (LIdx mat4__index (LVar "Result") (UInt 2)) (Call op_mul_vec4_float <<Call mat4__index_const <<Var "m"; UInt 2>>; Call vec3__index_const <<Var
    "v"; UInt 2>>>>);;
  Assign (LIdx mat4__index (LVar "Result") (UInt 3)) (Call mat4__index_const <<Var "m"; UInt 3>>);;
  Return (Var "Result")).
(** src/matrix_transform.cpp 60-80 *)
Definition c_lookAtRH_vec3_vec3_vec3 : fundef fn := Fun ["eye"; "center"; "up"] [Tcls Cvec3; Tcls Cvec3; Tcls Cvec3] (RVal (Tcls Cmat4)) [] (
  Decl "f" (Some (Call normalize_vec3 <<Call op_sub_vec3_vec3 <<Var "center"; Var "eye">>>>));;
  Decl "s" (Some (Call normalize_vec3 <<Call cross_vec3_vec3 <<Var "f"; Var "up">>>>));;
  Decl "u" (Some (Call cross_vec3_vec3 <<Var "s"; Var "f">>));;
  Decl "Result" (Some (Call mat4__float <<Conv Tfloat (Int 1)>>));;
  Assign (LIdx vec4__index (LIdx mat4__index (LVar "Result") (UInt 0)) (UInt 0)) (Read (LFld (LVar "s") 0));;
  Assign (LIdx vec4__index (LIdx mat4__index (LVar "Result") (UInt 1)) (UInt 0)) (Read (LFld (LVar "s") 1));;
  Assign (LIdx vec4__index (LIdx mat4__index (LVar "Result") (UInt 2)) (UInt 0)) (Read (LFld (LVar "s") 2));;
  Assign (LIdx vec4__index (LIdx mat4__index (LVar "Result") (UInt 0)) (UInt 1)) (Read (LFld (LVar "u") 0));;
  Assign (LIdx vec4__index (LIdx mat4__index (LVar "Result") (UInt 1)) (UInt 1)) (Read (LFld (LVar "u") 1));;
  Assign (LIdx vec4__index (LIdx mat4__index (LVar "Result") (UInt 2)) (UInt 1)) (Read (LFld (LVar "u") 2));;
  Assign (LIdx vec4__index (LIdx mat4__index (LVar "Result") (UInt 0)) (UInt 2)) (Un Oneg (Read (LFld (LVar "f") 0)));;
  Assign (LIdx vec4__index (LIdx mat4__index (LVar "Result") (UInt 1)) (UInt 2)) (Un Oneg (Read (LFld (LVar "f") 1)));;
  Assign (LIdx vec4__index (LIdx mat4__index (LVar "Result") (UInt 2)) (UInt 2)) (Un Oneg (Read (LFld (LVar "f") 2)));;
  Assign (LIdx vec4__index (LIdx mat4__index (LVar "Result") (UInt 3)) (UInt 0)) (Un Oneg (Call dot_vec3_vec3 <<Var "s"; Var "eye">>));;
  Assign (LIdx vec4__index (LIdx mat4__index (LVar "Result") (UInt 3)) (UInt 1)) (Un Oneg (Call dot_vec3_vec3 <<Var "u"; Var "eye">>));;
  Assign (LIdx vec4__index (LIdx mat4__index (LVar "Result") (UInt 3)) (UInt 2)) (Call dot_vec3_vec3 <<Var "f"; Var "eye">>);;
  Return (Var "Result")).
(** src/matrix_transform.cpp 82-102 *)
Definition c_lookAtLH_vec3_vec3_vec3 : fundef fn := Fun ["eye"; "center"; "up"] [Tcls Cvec3; Tcls Cvec3; Tcls Cvec3] (RVal (Tcls Cmat4)) [] (
  Decl "f" (Some (Call normalize_vec3 <<Call op_sub_vec3_vec3 <<Var "center"; Var "eye">>>>));;
  Decl "s" (Some (Call normalize_vec3 <<Call cross_vec3_vec3 <<Var "up"; Var "f">>>>));;
  Decl "u" (Some (Call cross_vec3_vec3 <<Var "f"; Var "s">>));;
  Decl "Result" (Some (Call mat4__float <<Conv Tfloat (Int 1)>>));;
  Assign (LIdx vec4__index (LIdx mat4__index (LVar "Result") (UInt 0)) (UInt 0)) (Read (LFld (LVar "s") 0));;
  Assign (LIdx vec4__index (LIdx mat4__index (LVar "Result") (UInt 1)) (UInt 0)) (Read (LFld (LVar "s") 1));;
  Assign (LIdx vec4__index (LIdx mat4__index (LVar "Result") (UInt 2)) (UInt 0)) (Read (LFld (LVar "s") 2));;
  Assign (LIdx vec4__index (LIdx mat4__index (LVar "Result") (UInt 0)) (UInt 1)) (Read (LFld (LVar "u") 0));;
  Assign (LIdx vec4__index (LIdx mat4__index (LVar "Result") (UInt 1)) (UInt 1)) (Read (LFld (LVar "u") 1));;
  Assign (LIdx vec4__index (LIdx mat4__index (LVar "Result") (UInt 2)) (UInt 1)) (Read (LFld (LVar "u") 2));;
  Assign (LIdx vec4__index (LIdx mat4__index (LVar "Result") (UInt 0)) (UInt 2)) (Read (LFld (LVar "f") 0));;
  Assign (LIdx vec4__index (LIdx mat4__index (LVar "Result") (UInt 1)) (UInt 2)) (Read (LFld (LVar "f") 1));;
  Assign (LIdx vec4__index (LIdx mat4__index (LVar "Result") (UInt 2)) (UInt 2)) (Read (LFld (LVar "f") 2));;
  Assign (LIdx vec4__index (LIdx mat4__index (LVar "Result") (UInt 3)) (UInt 0)) (Un Oneg (Call dot_vec3_vec3 <<Var "s"; Var "eye">>));;
  Assign (LIdx vec4__index (LIdx mat4__index (LVar "Result") (UInt 3)) (UInt 1)) (Un Oneg (Call dot_vec3_vec3 <<Var "u"; Var "eye">>));;
  Assign (LIdx vec4__index (LIdx mat4__index (LVar "Result") (UInt 3)) (UInt 2)) (Un Oneg (Call dot_vec3_vec3 <<Var "f"; Var "eye">>));;
  Return (Var "Result")).
(** src/matrix_transform.cpp 104-113 *)
Definition c_ortho_float_float_float_float : fundef fn := Fun ["left"; "right"; "bottom"; "top"] [Tfloat; Tfloat; Tfloat; Tfloat] (RVal (Tcls Cmat4)) [] (
  Decl "Result" (Some (Call mat4__float <<Lit 1 0>>));;
  Assign (LIdx vec4__index (LIdx mat4__index (LVar "Result") (UInt 0)) (UInt 0)) (Bin Odiv (Lit 2 0) (Bin Osub (Var "right") (Var "left")));;
  Assign (LIdx vec4__index (LIdx mat4__index (LVar "Result") (UInt 1)) (UInt 1)) (Bin Odiv (Lit 2 0) (Bin Osub (Var "top") (Var "bottom")));;
  Assign (LIdx vec4__index (LIdx mat4__index (LVar "Result") (UInt 2)) (UInt 2)) (Un Oneg (Lit 1 0));;
  Assign (LIdx vec4__index (LIdx mat4__index (LVar "Result") (UInt 3)) (UInt 0)) (Bin Odiv (Un Oneg (Bin Oadd (Var "right") (Var "left"))) (Bin Osub
    (Var "right") (Var "left")));;
  Assign (LIdx vec4__index (LIdx mat4__index (LVar "Result") (UInt 3)) (UInt 1)) (Bin Odiv (Un Oneg (Bin Oadd (Var "top") (Var "bottom"))) (Bin Osub
    (Var "top") (Var "bottom")));;
  Return (Var "Result")).
(** src/matrix_transform.cpp 115-125 *)
Definition c_orthoLH_ZO_float_float_float_float_float_float : fundef fn := Fun ["left"; "right"; "bottom"; "top"; "zNear"; "zFar"] [Tfloat; Tfloat; Tfloat; Tfloat; Tfloat; Tfloat] (RVal (Tcls Cmat4)) [] (
  Decl "Result" (Some (Call mat4__float <<Lit 1 0>>));;
  Assign (LIdx vec4__index (LIdx mat4__index (LVar "Result") (UInt 0)) (UInt 0)) (Bin Odiv (Lit 2 0) (Bin Osub (Var "right") (Var "left")));;
  Assign (LIdx vec4__index (LIdx mat4__index (LVar "Result") (UInt 1)) (UInt 1)) (Bin Odiv (Lit 2 0) (Bin Osub (Var "top") (Var "bottom")));;
  Assign (LIdx vec4__index (LIdx mat4__index (LVar "Result") (UInt 2)) (UInt 2)) (Bin Odiv (Lit 1 0) (Bin Osub (Var "zFar") (Var "zNear")));;
  Assign (LIdx vec4__index (LIdx mat4__index (LVar "Result") (UInt 3)) (UInt 0)) (Bin Odiv (Un Oneg (Bin Oadd (Var "right") (Var "left"))) (Bin Osub
    (Var "right") (Var "left")));;
  Assign (LIdx vec4__index (LIdx mat4__index (LVar "Result") (UInt 3)) (UInt 1)) (Bin Odiv (Un Oneg (Bin Oadd (Var "top") (Var "bottom"))) (Bin Osub
    (Var "top") (Var "bottom")));;
  Assign (LIdx vec4__index (LIdx mat4__index (LVar "Result") (UInt 3)) (UInt 2)) (Bin Odiv (Un Oneg (Var "zNear")) (Bin Osub (Var "zFar") (Var
    "zNear")));;
  Return (Var "Result")).
(** src/matrix_transform.cpp 127-137 *)
Definition c_orthoRH_ZO_float_float_float_float_float_float : fundef fn := Fun ["left"; "right"; "bottom"; "top"; "zNear"; "zFar"] [Tfloat; Tfloat; Tfloat; Tfloat; Tfloat; Tfloat] (RVal (Tcls Cmat4)) [] (
  Decl "Result" (Some (Call mat4__float <<Lit 1 0>>));;
  Assign (LIdx vec4__index (LIdx mat4__index (LVar "Result") (UInt 0)) (UInt 0)) (Bin Odiv (Lit 2 0) (Bin Osub (Var "right") (Var "left")));;
  Assign (LIdx vec4__index (LIdx mat4__index (LVar "Result") (UInt 1)) (UInt 1)) (Bin Odiv (Lit 2 0) (Bin Osub (Var "top") (Var "bottom")));;
  Assign (LIdx vec4__index (LIdx mat4__index (LVar "Result") (UInt 2)) (UInt 2)) (Bin Odiv (Un Oneg (Lit 1 0)) (Bin Osub (Var "zFar") (Var "zNear")));;
  Assign (LIdx vec4__index (LIdx mat4__index (LVar "Result") (UInt 3)) (UInt 0)) (Bin Odiv (Un Oneg (Bin Oadd (Var "right") (Var "left"))) (Bin Osub
    (Var "right") (Var "left")));;
  Assign (LIdx vec4__index (LIdx mat4__index (LVar "Result") (UInt 3)) (UInt 1)) (Bin Odiv (Un Oneg (Bin Oadd (Var "top") (Var "bottom"))) (Bin Osub
    (Var "top") (Var "bottom")));;
  Assign (LIdx vec4__index (LIdx mat4__index (LVar "Result") (UInt 3)) (UInt 2)) (Bin Odiv (Un Oneg (Var "zNear")) (Bin Osub (Var "zFar") (Var
    "zNear")));;
  Return (Var "Result")).
(** src/matrix_transform.cpp 139-149 *)
Definition c_orthoLH_NO_float_float_float_float_float_float : fundef fn := Fun ["left"; "right"; "bottom"; "top"; "zNear"; "zFar"] [Tfloat; Tfloat; Tfloat; Tfloat; Tfloat; Tfloat] (RVal (Tcls Cmat4)) [] (
  Decl "Result" (Some (Call mat4__float <<Lit 1 0>>));;
  Assign (LIdx vec4__index (LIdx mat4__index (LVar "Result") (UInt 0)) (UInt 0)) (Bin Odiv (Lit 2 0) (Bin Osub (Var "right") (Var "left")));;
  Assign (LIdx vec4__index (LIdx mat4__index (LVar "Result") (UInt 1)) (UInt 1)) (Bin Odiv (Lit 2 0) (Bin Osub (Var "top") (Var "bottom")));;
  Assign (LIdx vec4__index (LIdx mat4__index (LVar "Result") (UInt 2)) (UInt 2)) (Bin Odiv (Lit 2 0) (Bin Osub (Var "zFar") (Var "zNear")));;
  Assign (LIdx vec4__index (LIdx mat4__index (LVar "Result") (UInt 3)) (UInt 0)) (Bin Odiv (Un Oneg (Bin Oadd (Var "right") (Var "left"))) (Bin Osub
    (Var "right") (Var "left")));;
  Assign (LIdx vec4__index (LIdx mat4__index (LVar "Result") (UInt 3)) (UInt 1)) (Bin Odiv (Un Oneg (Bin Oadd (Var "top") (Var "bottom"))) (Bin Osub
    (Var "top") (Var "bottom")));;
  Assign (LIdx vec4__index (LIdx mat4__index (LVar "Result") (UInt 3)) (UInt 2)) (Bin Odiv (Un Oneg (Bin Oadd (Var "zFar") (Var "zNear"))) (Bin Osub
    (Var "zFar") (Var "zNear")));;
  Return (Var "Result")).
(** src/matrix_transform.cpp 151-161 *)
Definition c_orthoRH_NO_float_float_float_float_float_float : fundef fn := Fun ["left"; "right"; "bottom"; "top"; "zNear"; "zFar"] [Tfloat; Tfloat; Tfloat; Tfloat; Tfloat; Tfloat] (RVal (Tcls Cmat4)) [] (
  Decl "Result" (Some (Call mat4__float <<Conv Tfloat (Int 1)>>));;
  Assign (LIdx vec4__index (LIdx mat4__index (LVar "Result") (UInt 0)) (UInt 0)) (Bin Odiv (Conv Tfloat (Int 2)) (Bin Osub (Var "right") (Var "left")));;
  Assign (LIdx vec4__index (LIdx mat4__index (LVar "Result") (UInt 1)) (UInt 1)) (Bin Odiv (Conv Tfloat (Int 2)) (Bin Osub (Var "top") (Var "bottom")));;
  Assign (LIdx vec4__index (LIdx mat4__index (LVar "Result") (UInt 2)) (UInt 2)) (Bin Odiv (Conv Tfloat (Un Oneg (Int 2))) (Bin Osub (Var "zFar") (Var
    "zNear")));;
  Assign (LIdx vec4__index (LIdx mat4__index (LVar "Result") (UInt 3)) (UInt 0)) (Bin Odiv (Un Oneg (Bin Oadd (Var "right") (Var "left"))) (Bin Osub
    (Var "right") (Var "left")));;
  Assign (LIdx vec4__index (LIdx mat4__index (LVar "Result") (UInt 3)) (UInt 1)) (Bin Odiv (Un Oneg (Bin Oadd (Var "top") (Var "bottom"))) (Bin Osub
    (Var "top") (Var "bottom")));;
  Assign (LIdx vec4__index (LIdx mat4__index (LVar "Result") (UInt 3)) (UInt 2)) (Bin Odiv (Un Oneg (Bin Oadd (Var "zFar") (Var "zNear"))) (Bin Osub
    (Var "zFar") (Var "zNear")));;
  Return (Var "Result")).
(** src/matrix_transform.cpp 163-176 *)
Definition c_perspectiveRH_ZO_float_float_float_float : fundef fn := Fun ["fovy"; "aspect"; "zNear"; "zFar"] [Tfloat; Tfloat; Tfloat; Tfloat] (RVal (Tcls Cmat4)) [] (
  Assert (Bin Ogt (Call abs_float <<Bin Osub (Var "aspect") (Lit 11920928955078125 (-23))>>) (Lit 0 0));;
  Decl "tanHalfFovy" (Some (Call tan_float <<Bin Omul (Var "fovy") (Lit 5 (-1))>>));;
  Decl "Result" (Some (Call mat4__float <<Lit 0 0>>));;
  Assign (LIdx vec4__index (LIdx mat4__index (LVar "Result") (UInt 0)) (UInt 0)) (Bin Odiv (Lit 1 0) (Bin Omul (Var "aspect") (Var "tanHalfFovy")));;
  Assign (LIdx vec4__index (LIdx mat4__index (LVar "Result") (UInt 1)) (UInt 1)) (Bin Odiv (Lit 1 0) (Var "tanHalfFovy"));;
  Assign (LIdx vec4__index (LIdx mat4__index (LVar "Result") (UInt 2)) (UInt 2)) (Bin Odiv (Var "zFar") (Bin Osub (Var "zNear") (Var "zFar")));;
  Assign (LIdx vec4__index (LIdx mat4__index (LVar "Result") (UInt 2)) (UInt 3)) (Un Oneg (Lit 1 0));;
  Assign (LIdx vec4__index (LIdx mat4__index (LVar "Result") (UInt 3)) (UInt 2)) (Bin Odiv (Un Oneg (Bin Omul (Var "zFar") (Var "zNear"))) (Bin Osub
    (Var "zFar") (Var "zNear")));;
  Return (Var "Result")).
(** src/matrix_transform.cpp 178-191 *)
Definition c_perspectiveRH_NO_float_float_float_float : fundef fn := Fun ["fovy"; "aspect"; "zNear"; "zFar"] [Tfloat; Tfloat; Tfloat; Tfloat] (RVal (Tcls Cmat4)) [] (
  Assert (Bin Ogt (Call abs_float <<Bin Osub (Var "aspect") (Lit 11920928955078125 (-23))>>) (Lit 0 0));;
  Decl "tanHalfFovy" (Some (Call tan_float <<Bin Omul (Var "fovy") (Lit 5 (-1))>>));;
  Decl "Result" (Some (Call mat4__float <<Lit 0 0>>));;
  Assign (LIdx vec4__index (LIdx mat4__index (LVar "Result") (UInt 0)) (UInt 0)) (Bin Odiv (Lit 1 0) (Bin Omul (Var "aspect") (Var "tanHalfFovy")));;
  Assign (LIdx vec4__index (LIdx mat4__index (LVar "Result") (UInt 1)) (UInt 1)) (Bin Odiv (Lit 1 0) (Var "tanHalfFovy"));;
  Assign (LIdx vec4__index (LIdx mat4__index (LVar "Result") (UInt 2)) (UInt 2)) (Bin Odiv (Un Oneg (Bin Oadd (Var "zFar") (Var "zNear"))) (Bin Osub
    (Var "zFar") (Var "zNear")));;
  Assign (LIdx vec4__index (LIdx mat4__index (LVar "Result") (UInt 2)) (UInt 3)) (Un Oneg (Lit 1 0));;
  Assign (LIdx vec4__index (LIdx mat4__index (LVar "Result") (UInt 3)) (UInt 2)) (Bin Odiv (Un Oneg (Bin Omul (Bin Omul (Lit 2 0) (Var "zFar")) (Var
    "zNear"))) (Bin Osub (Var "zFar") (Var "zNear")));;
  Return (Var "Result")).
(** src/matrix_transform.cpp 193-206 *)
Definition c_perspectiveLH_ZO_float_float_float_float : fundef fn := Fun ["fovy"; "aspect"; "zNear"; "zFar"] [Tfloat; Tfloat; Tfloat; Tfloat] (RVal (Tcls Cmat4)) [] (
  Assert (Bin Ogt (Call abs_float <<Bin Osub (Var "aspect") (Lit 11920928955078125 (-23))>>) (Lit 0 0));;
  Decl "tanHalfFovy" (Some (Call tan_float <<Bin Omul (Var "fovy") (Lit 5 (-1))>>));;
  Decl "Result" (Some (Call mat4__float <<Lit 0 0>>));;
  Assign (LIdx vec4__index (LIdx mat4__index (LVar "Result") (UInt 0)) (UInt 0)) (Bin Odiv (Lit 1 0) (Bin Omul (Var "aspect") (Var "tanHalfFovy")));;
  Assign (LIdx vec4__index (LIdx mat4__index (LVar "Result") (UInt 1)) (UInt 1)) (Bin Odiv (Lit 1 0) (Var "tanHalfFovy"));;
  Assign (LIdx vec4__index (LIdx mat4__index (LVar "Result") (UInt 2)) (UInt 2)) (Bin Odiv (Var "zFar") (Bin Osub (Var "zFar") (Var "zNear")));;
  Assign (LIdx vec4__index (LIdx mat4__index (LVar "Result") (UInt 2)) (UInt 3)) (Lit 1 0);;
  Assign (LIdx vec4__index (LIdx mat4__index (LVar "Result") (UInt 3)) (UInt 2)) (Bin Odiv (Un Oneg (Bin Omul (Var "zFar") (Var "zNear"))) (Bin Osub
    (Var "zFar") (Var "zNear")));;
  Return (Var "Result")).
(** src/matrix_transform.cpp 208-221 *)
Definition c_perspectiveLH_NO_float_float_float_float : fundef fn := Fun ["fovy"; "aspect"; "zNear"; "zFar"] [Tfloat; Tfloat; Tfloat; Tfloat] (RVal (Tcls Cmat4)) [] (
  Assert (Bin Ogt (Call abs_float <<Bin Osub (Var "aspect") (Lit 11920928955078125 (-23))>>) (Lit 0 0));;
  Decl "tanHalfFovy" (Some (Call tan_float <<Bin Omul (Var "fovy") (Lit 5 (-1))>>));;
  Decl "Result" (Some (Call mat4__float <<Lit 0 0>>));;
  Assign (LIdx vec4__index (LIdx mat4__index (LVar "Result") (UInt 0)) (UInt 0)) (Bin Odiv (Lit 1 0) (Bin Omul (Var "aspect") (Var "tanHalfFovy")));;
  Assign (LIdx vec4__index (LIdx mat4__index (LVar "Result") (UInt 1)) (UInt 1)) (Bin Odiv (Lit 1 0) (Var "tanHalfFovy"));;
  Assign (LIdx vec4__index (LIdx mat4__index (LVar "Result") (UInt 2)) (UInt 2)) (Bin Odiv (Bin Oadd (Var "zFar") (Var "zNear")) (Bin Osub (Var "zFar")
    (Var "zNear")));;
  Assign (LIdx vec4__index (LIdx mat4__index (LVar "Result") (UInt 2)) (UInt 3)) (Lit 1 0);;
  Assign (LIdx vec4__index (LIdx mat4__index (LVar "Result") (UInt 3)) (UInt 2)) (Bin Odiv (Un Oneg (Bin Omul (Bin Omul (Lit 2 0) (Var "zFar")) (Var
    "zNear"))) (Bin Osub (Var "zFar") (Var "zNear")));;
  Return (Var "Result")).
(** src/matrix_transform.cpp 223-286 *)
Definition c_decompose_orthogonal_mat4_vec3_quat_vec3 : fundef fn := Fun ["model_mat"; "scale"; "orientation"; "translation"] [Tcls Cmat4; Tcls Cvec3; Tcls Cquat; Tcls Cvec3] RVoid ["scale"; "orientation"; "translation"] (
  Assign (LVar "translation") (Call vec3__float_float_float <<Read (LFld (LTmp (Call mat4__index_const <<Var "model_mat"; UInt 3>>)) 0); Read (LFld
    (LTmp (Call mat4__index_const <<Var "model_mat"; UInt 3>>)) 1); Read (LFld (LTmp (Call mat4__index_const <<Var "model_mat"; UInt 3>>)) 2)>>);;
  Decl "Row" (Some (NewArr <<Call vec3__default ENil; Call vec3__default ENil; Call vec3__default ENil>>));;
  For "i" 0 3 (For "j" 0 3 (Assign (LIdx vec3__index (LSub (LVar "Row") (Var "i")) (Conv Tuint (Var "j"))) (Call vec4__index_const <<Call
    mat4__index_const <<Var "model_mat"; Conv Tuint (Var "i")>>; Conv Tuint (Var "j")>>)));;
  Assign (LFld (LVar "scale") 0) (Call length_vec3 <<Read (LFld (LVar "Row") 0)>>);;
  Mut vec3__op_div_assign_float (LFld (LVar "Row") 0) <<Read (LFld (LVar "scale") 0)>>;;
  Assign (LFld (LVar "scale") 1) (Call length_vec3 <<Read (LFld (LVar "Row") 1)>>);;
  Mut vec3__op_div_assign_float (LFld (LVar "Row") 1) <<Read (LFld (LVar "scale") 1)>>;;
  Assign (LFld (LVar "scale") 2) (Call length_vec3 <<Read (LFld (LVar "Row") 2)>>);;
  Mut vec3__op_div_assign_float (LFld (LVar "Row") 2) <<Read (LFld (LVar "scale") 2)>>;;
  If (Bin Olt (Call dot_vec3_vec3 <<Read (LFld (LVar "Row") 0); Call cross_vec3_vec3 <<Read (LFld (LVar "Row") 1); Read (LFld (LVar "Row") 2)>>>>) (Conv
    Tfloat (Int 0))) (For "i" 0 3 (Assign (LIdx vec3__index (LVar "scale") (Conv Tuint (Var "i"))) (Bin Omul (Read (LIdx vec3__index (LVar "scale")
    (Conv Tuint (Var "i")))) (Un Oneg (Lit 1 0)));; Mut vec3__op_mul_assign_float (LSub (LVar "Row") (Var "i")) <<Un Oneg (Lit 1 0)>>)) Skip;;
  Decl "i" None;;
  Decl "j" None;;
  Decl "k" (Some (Int 0));;
  Decl "root" None;;
  Decl "trace" (Some (Bin Oadd (Bin Oadd (Read (LFld (LFld (LVar "Row") 0) 0)) (Read (LFld (LFld (LVar "Row") 1) 1))) (Read (LFld (LFld (LVar "Row") 2)
    2))));;
  If (Bin Ogt (Var "trace") (Lit 0 0)) (Assign (LVar "root") (Call sqrt_float <<Bin Oadd (Var "trace") (Lit 1 0)>>);; Assign (LFld (LVar "orientation")
    3) (Bin Omul (Lit 5 (-1)) (Var "root"));; Assign (LVar "root") (Bin Odiv (Lit 5 (-1)) (Var "root"));; Assign (LFld (LVar "orientation") 0) (Bin
    Omul (Var "root") (Bin Osub (Read (LFld (LFld (LVar "Row") 1) 2)) (Read (LFld (LFld (LVar "Row") 2) 1))));; Assign (LFld (LVar "orientation") 1)
    (Bin Omul (Var "root") (Bin Osub (Read (LFld (LFld (LVar "Row") 2) 0)) (Read (LFld (LFld (LVar "Row") 0) 2))));; Assign (LFld (LVar "orientation")
    2) (Bin Omul (Var "root") (Bin Osub (Read (LFld (LFld (LVar "Row") 0) 1)) (Read (LFld (LFld (LVar "Row") 1) 0))))) (Block (Decl "Next" (Some
    (NewArr <<Int 1; Int 2; Int 0>>));; Assign (LVar "i") (Int 0);; If (Bin Ogt (Read (LFld (LFld (LVar "Row") 1) 1)) (Read (LFld (LFld (LVar "Row")
    0) 0))) (Assign (LVar "i") (Int 1)) Skip;; If (Bin Ogt (Read (LFld (LFld (LVar "Row") 2) 2)) (Read (LIdx vec3__index (LSub (LVar "Row") (Var "i"))
    (Conv Tuint (Var "i"))))) (Assign (LVar "i") (Int 2)) Skip;; Assign (LVar "j") (Read (LSub (LVar "Next") (Var "i")));; Assign (LVar "k") (Read
    (LSub (LVar "Next") (Var "j")));; Assign (LVar "root") (Call sqrt_float <<Bin Oadd (Bin Osub (Bin Osub (Read (LIdx vec3__index (LSub (LVar "Row")
    (Var "i")) (Conv Tuint (Var "i")))) (Read (LIdx vec3__index (LSub (LVar "Row") (Var "j")) (Conv Tuint (Var "j"))))) (Read (LIdx vec3__index (LSub
    (LVar "Row") (Var "k")) (Conv Tuint (Var "k"))))) (Lit 1 0)>>);; Assign (LIdx quat__index (LVar "orientation") (Conv Tuint (Var "i"))) (Bin Omul
    (Lit 5 (-1)) (Var "root"));; Assign (LVar "root") (Bin Odiv (Lit 5 (-1)) (Var "root"));; Assign (LIdx quat__index (LVar "orientation") (Conv Tuint
    (Var "j"))) (Bin Omul (Var "root") (Bin Oadd (Read (LIdx vec3__index (LSub (LVar "Row") (Var "i")) (Conv Tuint (Var "j")))) (Read (LIdx
    vec3__index (LSub (LVar "Row") (Var "j")) (Conv Tuint (Var "i"))))));; Assign (LIdx quat__index (LVar "orientation") (Conv Tuint (Var "k"))) (Bin
    Omul (Var "root") (Bin Oadd (Read (LIdx vec3__index (LSub (LVar "Row") (Var "i")) (Conv Tuint (Var "k")))) (Read (LIdx vec3__index (LSub (LVar
    "Row") (Var "k")) (Conv Tuint (Var "i"))))));; Assign (LFld (LVar "orientation") 3) (Bin Omul (Var "root") (Bin Osub (Read (LIdx vec3__index (LSub
    (LVar "Row") (Var "j")) (Conv Tuint (Var "k")))) (Read (LIdx vec3__index (LSub (LVar "Row") (Var "k")) (Conv Tuint (Var "j"))))))))).

(** ** src/quaternion.cpp *)
(** src/quaternion.cpp 12-17 *)
Definition c_eulerAngles_quat : fundef fn := Fun ["x"] [Tcls Cquat] (RVal (Tcls Cvec3)) [] (
  Return (Call vec3__float_float_float <<Call pitch_quat <<Var "x">>; Call yaw_quat <<Var "x">>; Call roll_quat <<Var "x">>>>)).
(** src/quaternion.cpp 19-28 *)
Definition c_pitch_quat : fundef fn := Fun ["q"] [Tcls Cquat] (RVal Tfloat) [] (
  Decl "y" (Some (Bin Omul (Lit 2 0) (Bin Oadd (Bin Omul (Read (LFld (LVar "q") 1)) (Read (LFld (LVar "q") 2))) (Bin Omul (Read (LFld (LVar "q") 3))
    (Read (LFld (LVar "q") 0))))));;
  Decl "x" (Some (Bin Oadd (Bin Osub (Bin Osub (Bin Omul (Read (LFld (LVar "q") 3)) (Read (LFld (LVar "q") 3))) (Bin Omul (Read (LFld (LVar "q") 0))
    (Read (LFld (LVar "q") 0)))) (Bin Omul (Read (LFld (LVar "q") 1)) (Read (LFld (LVar "q") 1)))) (Bin Omul (Read (LFld (LVar "q") 2)) (Read (LFld
    (LVar "q") 2)))));;
  If (And (Bin Oeq (Var "x") (Lit 0 0)) (Bin Oeq (Var "y") (Lit 0 0))) (Return (Bin Omul (Lit 2 0) (Call atan_float_float <<Read (LFld (LVar "q") 0);
    Read (LFld (LVar "q") 3)>>))) Skip;;
  Return (Call atan_float_float <<Var "y"; Var "x">>)).
(** src/quaternion.cpp 30-33 *)
Definition c_yaw_quat : fundef fn := Fun ["q"] [Tcls Cquat] (RVal Tfloat) [] (
  Return (Call asin_float <<Call clamp_float_float_float <<Bin Omul (Un Oneg (Lit 2 0)) (Bin Osub (Bin Omul (Read (LFld (LVar "q") 0)) (Read (LFld (LVar
    "q") 2))) (Bin Omul (Read (LFld (LVar "q") 3)) (Read (LFld (LVar "q") 1)))); Un Oneg (Lit 1 0); Lit 1 0>>>>)).
(** src/quaternion.cpp 35-38 *)
Definition c_roll_quat : fundef fn := Fun ["q"] [Tcls Cquat] (RVal Tfloat) [] (
  Return (Call atan_float_float <<Bin Omul (Lit 2 0) (Bin Oadd (Bin Omul (Read (LFld (LVar "q") 0)) (Read (LFld (LVar "q") 1))) (Bin Omul (Read (LFld
    (LVar "q") 3)) (Read (LFld (LVar "q") 2)))); Bin Osub (Bin Osub (Bin Oadd (Bin Omul (Read (LFld (LVar "q") 3)) (Read (LFld (LVar "q") 3))) (Bin
    Omul (Read (LFld (LVar "q") 0)) (Read (LFld (LVar "q") 0)))) (Bin Omul (Read (LFld (LVar "q") 1)) (Read (LFld (LVar "q") 1)))) (Bin Omul (Read
    (LFld (LVar "q") 2)) (Read (LFld (LVar "q") 2)))>>)).
(** src/quaternion.cpp 40-65 *)
Definition c_mat3_cast_quat : fundef fn := Fun ["q"] [Tcls Cquat] (RVal (Tcls Cmat3)) [] (
  Decl "Result" (Some (Call mat3__no_init_t ENil));;
  Decl "qxx" (Some (Bin Omul (Read (LFld (LVar "q") 0)) (Read (LFld (LVar "q") 0))));;
  Decl "qyy" (Some (Bin Omul (Read (LFld (LVar "q") 1)) (Read (LFld (LVar "q") 1))));;
  Decl "qzz" (Some (Bin Omul (Read (LFld (LVar "q") 2)) (Read (LFld (LVar "q") 2))));;
  Decl "qxz" (Some (Bin Omul (Read (LFld (LVar "q") 0)) (Read (LFld (LVar "q") 2))));;
  Decl "qxy" (Some (Bin Omul (Read (LFld (LVar "q") 0)) (Read (LFld (LVar "q") 1))));;
  Decl "qyz" (Some (Bin Omul (Read (LFld (LVar "q") 1)) (Read (LFld (LVar "q") 2))));;
  Decl "qwx" (Some (Bin Omul (Read (LFld (LVar "q") 3)) (Read (LFld (LVar "q") 0))));;
  Decl "qwy" (Some (Bin Omul (Read (LFld (LVar "q") 3)) (Read (LFld (LVar "q") 1))));;
  Decl "qwz" (Some (Bin Omul (Read (LFld (LVar "q") 3)) (Read (LFld (LVar "q") 2))));;
  Assign (LIdx vec3__index (LIdx mat3__index (LVar "Result") (UInt 0)) (UInt 0)) (Bin Osub (Lit 1 0) (Bin Omul (Lit 2 0) (Bin Oadd (Var "qyy") (Var
    "qzz"))));;
  Assign (LIdx vec3__index (LIdx mat3__index (LVar "Result") (UInt 0)) (UInt 1)) (Bin Omul (Lit 2 0) (Bin Oadd (Var "qxy") (Var "qwz")));;
  Assign (LIdx vec3__index (LIdx mat3__index (LVar "Result") (UInt 0)) (UInt 2)) (Bin Omul (Lit 2 0) (Bin Osub (Var "qxz") (Var "qwy")));;
  Assign (LIdx vec3__index (LIdx mat3__index (LVar "Result") (UInt 1)) (UInt 0)) (Bin Omul (Lit 2 0) (Bin Osub (Var "qxy") (Var "qwz")));;
  Assign (LIdx vec3__index (LIdx mat3__index (LVar "Result") (UInt 1)) (UInt 1)) (Bin Osub (Lit 1 0) (Bin Omul (Lit 2 0) (Bin Oadd (Var "qxx") (Var
    "qzz"))));;
  Assign (LIdx vec3__index (LIdx mat3__index (LVar "Result") (UInt 1)) (UInt 2)) (Bin Omul (Lit 2 0) (Bin Oadd (Var "qyz") (Var "qwx")));;
  Assign (LIdx vec3__index (LIdx mat3__index (LVar "Result") (UInt 2)) (UInt 0)) (Bin Omul (Lit 2 0) (Bin Oadd (Var "qxz") (Var "qwy")));;
  Assign (LIdx vec3__index (LIdx mat3__index (LVar "Result") (UInt 2)) (UInt 1)) (Bin Omul (Lit 2 0) (Bin Osub (Var "qyz") (Var "qwx")));;
  Assign (LIdx vec3__index (LIdx mat3__index (LVar "Result") (UInt 2)) (UInt 2)) (Bin Osub (Lit 1 0) (Bin Omul (Lit 2 0) (Bin Oadd (Var "qxx") (Var
    "qyy"))));;
  Return (Var "Result")).
(** src/quaternion.cpp 67-70 *)
Definition c_mat4_cast_quat : fundef fn := Fun ["q"] [Tcls Cquat] (RVal (Tcls Cmat4)) [] (
  Return (Call mat4__mat3 <<Call mat3_cast_quat <<Var "q">>>>)).
(** src/quaternion.cpp 72-112 *)
Definition c_quat_cast_mat3 : fundef fn := Fun ["m"] [Tcls Cmat3] (RVal (Tcls Cquat)) [] (
  Decl "fourXSquaredMinus1" (Some (Bin Osub (Bin Osub (Call vec3__index_const <<Call mat3__index_const <<Var "m"; UInt 0>>; UInt 0>>) (Call
    vec3__index_const <<Call mat3__index_const <<Var "m"; UInt 1>>; UInt 1>>)) (Call vec3__index_const <<Call mat3__index_const <<Var "m"; UInt 2>>;
    UInt 2>>)));;
  Decl "fourYSquaredMinus1" (Some (Bin Osub (Bin Osub (Call vec3__index_const <<Call mat3__index_const <<Var "m"; UInt 1>>; UInt 1>>) (Call
    vec3__index_const <<Call mat3__index_const <<Var "m"; UInt 0>>; UInt 0>>)) (Call vec3__index_const <<Call mat3__index_const <<Var "m"; UInt 2>>;
    UInt 2>>)));;
  Decl "fourZSquaredMinus1" (Some (Bin Osub (Bin Osub (Call vec3__index_const <<Call mat3__index_const <<Var "m"; UInt 2>>; UInt 2>>) (Call
    vec3__index_const <<Call mat3__index_const <<Var "m"; UInt 0>>; UInt 0>>)) (Call vec3__index_const <<Call mat3__index_const <<Var "m"; UInt 1>>;
    UInt 1>>)));;
  Decl "fourWSquaredMinus1" (Some (Bin Oadd (Bin Oadd (Call vec3__index_const <<Call mat3__index_const <<Var "m"; UInt 0>>; UInt 0>>) (Call
    vec3__index_const <<Call mat3__index_const <<Var "m"; UInt 1>>; UInt 1>>)) (Call vec3__index_const <<Call mat3__index_const <<Var "m"; UInt 2>>;
    UInt 2>>)));;
  Decl "biggestIndex" (Some (Int 0));;
  Decl "fourBiggestSquaredMinus1" (Some (Var "fourWSquaredMinus1"));;
  If (Bin Ogt (Var "fourXSquaredMinus1") (Var "fourBiggestSquaredMinus1")) (Assign (LVar "fourBiggestSquaredMinus1") (Var "fourXSquaredMinus1");; Assign
    (LVar "biggestIndex") (Int 1)) Skip;;
  If (Bin Ogt (Var "fourYSquaredMinus1") (Var "fourBiggestSquaredMinus1")) (Assign (LVar "fourBiggestSquaredMinus1") (Var "fourYSquaredMinus1");; Assign
    (LVar "biggestIndex") (Int 2)) Skip;;
  If (Bin Ogt (Var "fourZSquaredMinus1") (Var "fourBiggestSquaredMinus1")) (Assign (LVar "fourBiggestSquaredMinus1") (Var "fourZSquaredMinus1");; Assign
    (LVar "biggestIndex") (Int 3)) Skip;;
  Decl "biggestVal" (Some (Bin Omul (Call sqrt_float <<Bin Oadd (Var "fourBiggestSquaredMinus1") (Lit 1 0)>>) (Lit 5 (-1))));;
  Decl "mult" (Some (Bin Odiv (Lit 25 (-2)) (Var "biggestVal")));;
  If (Bin Oeq (Var "biggestIndex") (Int 0)) (Return (Call quat__wxyz_float_float_float_float <<Var "biggestVal"; Bin Omul (Bin Osub (Call
    vec3__index_const <<Call mat3__index_const <<Var "m"; UInt 1>>; UInt 2>>) (Call vec3__index_const <<Call mat3__index_const <<Var "m"; UInt 2>>;
    UInt 1>>)) (Var "mult"); Bin Omul (Bin Osub (Call vec3__index_const <<Call mat3__index_const <<Var "m"; UInt 2>>; UInt 0>>) (Call
    vec3__index_const <<Call mat3__index_const <<Var "m"; UInt 0>>; UInt 2>>)) (Var "mult"); Bin Omul (Bin Osub (Call vec3__index_const <<Call
    mat3__index_const <<Var "m"; UInt 0>>; UInt 1>>) (Call vec3__index_const <<Call mat3__index_const <<Var "m"; UInt 1>>; UInt 0>>)) (Var "mult")>>))
    (If (Bin Oeq (Var "biggestIndex") (Int 1)) (Return (Call quat__wxyz_float_float_float_float <<Bin Omul (Bin Osub (Call vec3__index_const <<Call
    mat3__index_const <<Var "m"; UInt 1>>; UInt 2>>) (Call vec3__index_const <<Call mat3__index_const <<Var "m"; UInt 2>>; UInt 1>>)) (Var "mult");
    Var "biggestVal"; Bin Omul (Bin Oadd (Call vec3__index_const <<Call mat3__index_const <<Var "m"; UInt 0>>; UInt 1>>) (Call vec3__index_const
    <<Call mat3__index_const <<Var "m"; UInt 1>>; UInt 0>>)) (Var "mult"); Bin Omul (Bin Oadd (Call vec3__index_const <<Call mat3__index_const <<Var
    "m"; UInt 2>>; UInt 0>>) (Call vec3__index_const <<Call mat3__index_const <<Var "m"; UInt 0>>; UInt 2>>)) (Var "mult")>>)) (If (Bin Oeq (Var
    "biggestIndex") (Int 2)) (Return (Call quat__wxyz_float_float_float_float <<Bin Omul (Bin Osub (Call vec3__index_const <<Call mat3__index_const
    <<Var "m"; UInt 2>>; UInt 0>>) (Call vec3__index_const <<Call mat3__index_const <<Var "m"; UInt 0>>; UInt 2>>)) (Var "mult"); Bin Omul (Bin Oadd
    (Call vec3__index_const <<Call mat3__index_const <<Var "m"; UInt 0>>; UInt 1>>) (Call vec3__index_const <<Call mat3__index_const <<Var "m"; UInt
    1>>; UInt 0>>)) (Var "mult"); Var "biggestVal"; Bin Omul (Bin Oadd (Call vec3__index_const <<Call mat3__index_const <<Var "m"; UInt 1>>; UInt 2>>)
    (Call vec3__index_const <<Call mat3__index_const <<Var "m"; UInt 2>>; UInt 1>>)) (Var "mult")>>)) (If (Bin Oeq (Var "biggestIndex") (Int 3))
    (Return (Call quat__wxyz_float_float_float_float <<Bin Omul (Bin Osub (Call vec3__index_const <<Call mat3__index_const <<Var "m"; UInt 0>>; UInt
    1>>) (Call vec3__index_const <<Call mat3__index_const <<Var "m"; UInt 1>>; UInt 0>>)) (Var "mult"); Bin Omul (Bin Oadd (Call vec3__index_const
    <<Call mat3__index_const <<Var "m"; UInt 2>>; UInt 0>>) (Call vec3__index_const <<Call mat3__index_const <<Var "m"; UInt 0>>; UInt 2>>)) (Var
    "mult"); Bin Omul (Bin Oadd (Call vec3__index_const <<Call mat3__index_const <<Var "m"; UInt 1>>; UInt 2>>) (Call vec3__index_const <<Call
    mat3__index_const <<Var "m"; UInt 2>>; UInt 1>>)) (Var "mult"); Var "biggestVal">>)) Skip)));;
  Return (Call quat__default ENil)).
(** src/quaternion.cpp 114-117 *)
Definition c_quat_cast_mat4 : fundef fn := Fun ["m"] [Tcls Cmat4] (RVal (Tcls Cquat)) [] (
  Return (Call quat_cast_mat3 <<Call mat4__to_mat3 <<Var "m">>>>)).
(** src/quaternion.cpp 119-128 *)
Definition c_quatLookAtLH_vec3_vec3 : fundef fn := Fun ["direction"; "up"] [Tcls Cvec3; Tcls Cvec3] (RVal (Tcls Cquat)) [] (
  Decl "Result" (Some (Call mat3__no_init_t ENil));;
  Assign (LIdx mat3__index (LVar "Result") (UInt 2)) (Var "direction");;
  Assign (LIdx mat3__index (LVar "Result") (UInt 0)) (Call normalize_vec3 <<Call cross_vec3_vec3 <<Var "up"; Read (LIdx mat3__index (LVar "Result")
    (UInt 2))>>>>);;
  Assign (LIdx mat3__index (LVar "Result") (UInt 1)) (Call cross_vec3_vec3 <<Read (LIdx mat3__index (LVar "Result") (UInt 2)); Read (LIdx mat3__index
    (LVar "Result") (UInt 0))>>);;
  Return (Call quat_cast_mat3 <<Var "Result">>)).
(** src/quaternion.cpp 130-139 *)
Definition c_quatLookAtRH_vec3_vec3 : fundef fn := Fun ["direction"; "up"] [Tcls Cvec3; Tcls Cvec3] (RVal (Tcls Cquat)) [] (
  Decl "Result" (Some (Call mat3__no_init_t ENil));;
  Assign (LIdx mat3__index (LVar "Result") (UInt 2)) (Call op_sub_vec3 <<Var "direction">>);;
  Assign (LIdx mat3__index (LVar "Result") (UInt 0)) (Call normalize_vec3 <<Call cross_vec3_vec3 <<Var "up"; Read (LIdx mat3__index (LVar "Result")
    (UInt 2))>>>>);;
  Assign (LIdx mat3__index (LVar "Result") (UInt 1)) (Call cross_vec3_vec3 <<Read (LIdx mat3__index (LVar "Result") (UInt 2)); Read (LIdx mat3__index
    (LVar "Result") (UInt 0))>>);;
  Return (Call quat_cast_mat3 <<Var "Result">>)).
(** src/quaternion.cpp 141-147 *)
Definition c_conjugate_quat : fundef fn := Fun ["x"] [Tcls Cquat] (RVal (Tcls Cquat)) [] (
  Return (Call quat__float_float_float_float <<Un Oplus (Read (LFld (LVar "x") 3)); Un Oneg (Read (LFld (LVar "x") 0)); Un Oneg (Read (LFld (LVar "x")
    1)); Un Oneg (Read (LFld (LVar "x") 2))>>)).
(** src/quaternion.cpp 149-152 *)
Definition c_inverse_quat : fundef fn := Fun ["x"] [Tcls Cquat] (RVal (Tcls Cquat)) [] (
  Return (Call op_div_quat_float <<Call conjugate_quat <<Var "x">>; Call dot_quat_quat <<Var "x"; Var "x">>>>)).
(** src/quaternion.cpp 154-161 *)
Definition c_lerp_quat_quat_float : fundef fn := Fun ["x"; "y"; "t"] [Tcls Cquat; Tcls Cquat; Tfloat] (RVal (Tcls Cquat)) [] (
  Assert (Bin Oge (Var "t") (Lit 0 0));;
  Assert (Bin Ole (Var "t") (Lit 1 0));;
  Return (Call op_add_quat_quat <<Call op_mul_quat_float <<Var "x"; Bin Osub (Lit 1 0) (Var "t")>>; Call op_mul_quat_float <<Var "y"; Var "t">>>>)).
(** src/quaternion.cpp 163-166 *)
Definition c_nlerp_quat_quat_float : fundef fn := Fun ["x"; "y"; "t"] [Tcls Cquat; Tcls Cquat; Tfloat] (RVal (Tcls Cquat)) [] (
  Return (Call normalize_quat <<Call lerp_quat_quat_float <<Var "x"; Var "y"; Var "t">>>>)).
(** src/quaternion.cpp 168-193 *)
Definition c_slerp_quat_quat_float : fundef fn := Fun ["x"; "y"; "t"] [Tcls Cquat; Tcls Cquat; Tfloat] (RVal (Tcls Cquat)) [] (
  Decl "z" (Some (Var "y"));;
  Decl "cosTheta" (Some (Call dot_quat_quat <<Var "x"; Var "y">>));;
  If (Bin Olt (Var "cosTheta") (Lit 0 0)) (Assign (LVar "z") (Call op_sub_quat <<Var "y">>);; Assign (LVar "cosTheta") (Un Oneg (Var "cosTheta"))) Skip;;
  If (Bin Ogt (Var "cosTheta") (Bin Osub (Lit 1 0) (Lit 11920928955078125 (-23)))) (Return (Call quat__wxyz_float_float_float_float <<Call
    mix_float_float_float <<Read (LFld (LVar "x") 3); Read (LFld (LVar "z") 3); Var "t">>; Call mix_float_float_float <<Read (LFld (LVar "x") 0); Read
    (LFld (LVar "z") 0); Var "t">>; Call mix_float_float_float <<Read (LFld (LVar "x") 1); Read (LFld (LVar "z") 1); Var "t">>; Call
    mix_float_float_float <<Read (LFld (LVar "x") 2); Read (LFld (LVar "z") 2); Var "t">>>>)) (Block (Decl "angle" (Some (Call acos_float <<Var
    "cosTheta">>));; Return (Call op_div_quat_float <<Call op_add_quat_quat <<Call op_mul_float_quat <<Call sin_float <<Bin Omul (Bin Osub (Lit 1 0)
    (Var "t")) (Var "angle")>>; Var "x">>; Call op_mul_float_quat <<Call sin_float <<Bin Omul (Var "t") (Var "angle")>>; Var "z">>>>; Call sin_float
    <<Var "angle">>>>)))).
(** src/quaternion.cpp 195-203 *)
Definition c_axis_quat : fundef fn := Fun ["q"] [Tcls Cquat] (RVal (Tcls Cvec3)) [] (
  Decl "tmp1" (Some (Bin Osub (Lit 1 0) (Bin Omul (Read (LFld (LVar "q") 3)) (Read (LFld (LVar "q") 3)))));;
  If (Bin Ole (Var "tmp1") (Lit 0 0)) (Return (Call vec3__float_float_float <<Conv Tfloat (Int 0); Conv Tfloat (Int 0); Conv Tfloat (Int 1)>>)) Skip;;
  Decl "tmp2" (Some (Call inversesqrt_float <<Var "tmp1">>));;
  Return (Call vec3__float_float_float <<Bin Omul (Read (LFld (LVar "q") 0)) (Var "tmp2"); Bin Omul (Read (LFld (LVar "q") 1)) (Var "tmp2"); Bin Omul
    (Read (LFld (LVar "q") 2)) (Var "tmp2")>>)).
(** src/quaternion.cpp 205-208 *)
Definition c_angle_quat : fundef fn := Fun ["q"] [Tcls Cquat] (RVal Tfloat) [] (
  Return (Bin Omul (Call acos_float <<Read (LFld (LVar "q") 3)>>) (Lit 2 0))).
(** src/quaternion.cpp 210-214 *)
Definition c_angleAxis_float_vec3 : fundef fn := Fun ["angle"; "axis"] [Tfloat; Tcls Cvec3] (RVal (Tcls Cquat)) [] (
  Decl "s" (Some (Call sin_float <<Bin Omul (Var "angle") (Lit 5 (-1))>>));;
  Return (Call quat__float_vec3 <<Call cos_float <<Bin Omul (Var "angle") (Lit 5 (-1))>>; Call op_mul_vec3_float <<Var "axis"; Var "s">>>>)).
(** src/quaternion.cpp 216-221 *)
Definition c_rotate_quat_float_vec3 : fundef fn := Fun ["q"; "angle"; "axis"] [Tcls Cquat; Tfloat; Tcls Cvec3] (RVal (Tcls Cquat)) [] (
  Decl "norm_axis" (Some (Call normalize_vec3 <<Var "axis">>));;
  Decl "rq" (Some (Call angleAxis_float_vec3 <<Var "angle"; Var "norm_axis">>));;
  Return (Call op_mul_quat_quat <<Var "q"; Var "rq">>)).
