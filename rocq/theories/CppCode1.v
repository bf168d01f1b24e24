(** * The source code, statement by statement: vectors

    Every definition is the function at the cited lines of /repo, in the syntax of Cpp.v. *)
From Coq Require Import ZArith NArith List String.
From Verif Require Import Cpp CppNames.
Import ListNotations.
Local Open Scope string_scope.
Local Open Scope cpp_scope.

(** ** src/vec2.cpp *)
(** src/vec2.cpp 10-12 *)
Definition c_vec2__default : fundef fn := Fun [] [] (RVal (Tcls Cvec2)) [] (
  Decl "this" (Some (Call vec2__float <<Lit 0 0>>));;
  Made).
(** src/vec2.cpp 14-15 *)
Definition c_vec2__no_init_t : fundef fn := Fun [] [] (RVal (Tcls Cvec2)) [] (
  Decl "this" (Some (New Cvec2 ENil));;
  Made).
(** src/vec2.cpp 17-21 *)
Definition c_vec2__float : fundef fn := Fun ["value"] [Tfloat] (RVal (Tcls Cvec2)) [] (
  Decl "this" (Some (New Cvec2 ENil));;
  Assign (LFld (LVar "this") 0) (Var "value");;
  Assign (LFld (LVar "this") 1) (Var "value");;
  Made).
(** src/vec2.cpp 23-24 *)
Definition c_vec2__int : fundef fn := Fun ["value"] [Tint] (RVal (Tcls Cvec2)) [] (
  Decl "this" (Some (Call vec2__float <<Conv Tfloat (Var "value")>>));;
  Made).
(** src/vec2.cpp 26-30 *)
Definition c_vec2__float_float : fundef fn := Fun ["_x"; "_y"] [Tfloat; Tfloat] (RVal (Tcls Cvec2)) [] (
  Decl "this" (Some (New Cvec2 ENil));;
  Assign (LFld (LVar "this") 0) (Var "_x");;
  Assign (LFld (LVar "this") 1) (Var "_y");;
  Made).
(** src/vec2.cpp 32-36 *)
Definition c_make_vec2_float_ptr : fundef fn := Fun ["ptr"] [Tptr Tfloat] (RVal (Tcls Cvec2)) [] (
  Assert (Conv Tbool (Var "ptr"));;
  Return (Call vec2__float_float <<Deref (Var "ptr") 0; Deref (Var "ptr") 1>>)).
(** src/vec2.cpp 39 *)
Definition c_op_add_vec2_vec2 : fundef fn := Fun ["first"; "second"] [Tcls Cvec2; Tcls Cvec2] (RVal (Tcls Cvec2)) [] (
  Return (Call vec2__float_float <<Bin Oadd (Read (LFld (LVar "first") 0)) (Read (LFld (LVar "second") 0)); Bin Oadd (Read (LFld (LVar "first") 1))
    (Read (LFld (LVar "second") 1))>>)).
(** src/vec2.cpp 39 *)
Definition c_op_add_vec2_float : fundef fn := Fun ["vec"; "scalar"] [Tcls Cvec2; Tfloat] (RVal (Tcls Cvec2)) [] (
  Return (Call vec2__float_float <<Bin Oadd (Read (LFld (LVar "vec") 0)) (Var "scalar"); Bin Oadd (Read (LFld (LVar "vec") 1)) (Var "scalar")>>)).
(** src/vec2.cpp 39 *)
Definition c_op_add_float_vec2 : fundef fn := Fun ["scalar"; "vec"] [Tfloat; Tcls Cvec2] (RVal (Tcls Cvec2)) [] (
  Return (Call vec2__float_float <<Bin Oadd (Var "scalar") (Read (LFld (LVar "vec") 0)); Bin Oadd (Var "scalar") (Read (LFld (LVar "vec") 1))>>)).
(** src/vec2.cpp 40 *)
Definition c_op_sub_vec2_vec2 : fundef fn := Fun ["first"; "second"] [Tcls Cvec2; Tcls Cvec2] (RVal (Tcls Cvec2)) [] (
  Return (Call vec2__float_float <<Bin Osub (Read (LFld (LVar "first") 0)) (Read (LFld (LVar "second") 0)); Bin Osub (Read (LFld (LVar "first") 1))
    (Read (LFld (LVar "second") 1))>>)).
(** src/vec2.cpp 40 *)
Definition c_op_sub_vec2_float : fundef fn := Fun ["vec"; "scalar"] [Tcls Cvec2; Tfloat] (RVal (Tcls Cvec2)) [] (
  Return (Call vec2__float_float <<Bin Osub (Read (LFld (LVar "vec") 0)) (Var "scalar"); Bin Osub (Read (LFld (LVar "vec") 1)) (Var "scalar")>>)).
(** src/vec2.cpp 40 *)
Definition c_op_sub_float_vec2 : fundef fn := Fun ["scalar"; "vec"] [Tfloat; Tcls Cvec2] (RVal (Tcls Cvec2)) [] (
  Return (Call vec2__float_float <<Bin Osub (Var "scalar") (Read (LFld (LVar "vec") 0)); Bin Osub (Var "scalar") (Read (LFld (LVar "vec") 1))>>)).
(** src/vec2.cpp 41 *)
Definition c_op_mul_vec2_vec2 : fundef fn := Fun ["first"; "second"] [Tcls Cvec2; Tcls Cvec2] (RVal (Tcls Cvec2)) [] (
  Return (Call vec2__float_float <<Bin Omul (Read (LFld (LVar "first") 0)) (Read (LFld (LVar "second") 0)); Bin Omul (Read (LFld (LVar "first") 1))
    (Read (LFld (LVar "second") 1))>>)).
(** src/vec2.cpp 41 *)
Definition c_op_mul_vec2_float : fundef fn := Fun ["vec"; "scalar"] [Tcls Cvec2; Tfloat] (RVal (Tcls Cvec2)) [] (
  Return (Call vec2__float_float <<Bin Omul (Read (LFld (LVar "vec") 0)) (Var "scalar"); Bin Omul (Read (LFld (LVar "vec") 1)) (Var "scalar")>>)).
(** src/vec2.cpp 41 *)
Definition c_op_mul_float_vec2 : fundef fn := Fun ["scalar"; "vec"] [Tfloat; Tcls Cvec2] (RVal (Tcls Cvec2)) [] (
  Return (Call vec2__float_float <<Bin Omul (Var "scalar") (Read (LFld (LVar "vec") 0)); Bin Omul (Var "scalar") (Read (LFld (LVar "vec") 1))>>)).
(** src/vec2.cpp 42 *)
Definition c_op_div_vec2_vec2 : fundef fn := Fun ["first"; "second"] [Tcls Cvec2; Tcls Cvec2] (RVal (Tcls Cvec2)) [] (
  Return (Call vec2__float_float <<Bin Odiv (Read (LFld (LVar "first") 0)) (Read (LFld (LVar "second") 0)); Bin Odiv (Read (LFld (LVar "first") 1))
    (Read (LFld (LVar "second") 1))>>)).
(** src/vec2.cpp 42 *)
Definition c_op_div_vec2_float : fundef fn := Fun ["vec"; "scalar"] [Tcls Cvec2; Tfloat] (RVal (Tcls Cvec2)) [] (
  Return (Call vec2__float_float <<Bin Odiv (Read (LFld (LVar "vec") 0)) (Var "scalar"); Bin Odiv (Read (LFld (LVar "vec") 1)) (Var "scalar")>>)).
(** src/vec2.cpp 42 *)
Definition c_op_div_float_vec2 : fundef fn := Fun ["scalar"; "vec"] [Tfloat; Tcls Cvec2] (RVal (Tcls Cvec2)) [] (
  Return (Call vec2__float_float <<Bin Odiv (Var "scalar") (Read (LFld (LVar "vec") 0)); Bin Odiv (Var "scalar") (Read (LFld (LVar "vec") 1))>>)).
(** src/vec2.cpp 45 *)
Definition c_vec2__op_add_assign_vec2 : fundef fn := Fun ["this"; "other"] [Tcls Cvec2; Tcls Cvec2] RVoid ["this"] (
  Assign (LFld (LVar "this") 0) (Bin Oadd (Read (LFld (LVar "this") 0)) (Read (LFld (LVar "other") 0)));;
  Assign (LFld (LVar "this") 1) (Bin Oadd (Read (LFld (LVar "this") 1)) (Read (LFld (LVar "other") 1)))).
(** src/vec2.cpp 45 *)
Definition c_vec2__op_add_assign_float : fundef fn := Fun ["this"; "scalar"] [Tcls Cvec2; Tfloat] RVoid ["this"] (
  Assign (LFld (LVar "this") 0) (Bin Oadd (Read (LFld (LVar "this") 0)) (Var "scalar"));;
  Assign (LFld (LVar "this") 1) (Bin Oadd (Read (LFld (LVar "this") 1)) (Var "scalar"))).
(** src/vec2.cpp 46 *)
Definition c_vec2__op_sub_assign_vec2 : fundef fn := Fun ["this"; "other"] [Tcls Cvec2; Tcls Cvec2] RVoid ["this"] (
  Assign (LFld (LVar "this") 0) (Bin Osub (Read (LFld (LVar "this") 0)) (Read (LFld (LVar "other") 0)));;
  Assign (LFld (LVar "this") 1) (Bin Osub (Read (LFld (LVar "this") 1)) (Read (LFld (LVar "other") 1)))).
(** src/vec2.cpp 46 *)
Definition c_vec2__op_sub_assign_float : fundef fn := Fun ["this"; "scalar"] [Tcls Cvec2; Tfloat] RVoid ["this"] (
  Assign (LFld (LVar "this") 0) (Bin Osub (Read (LFld (LVar "this") 0)) (Var "scalar"));;
  Assign (LFld (LVar "this") 1) (Bin Osub (Read (LFld (LVar "this") 1)) (Var "scalar"))).
(** src/vec2.cpp 47 *)
Definition c_vec2__op_mul_assign_vec2 : fundef fn := Fun ["this"; "other"] [Tcls Cvec2; Tcls Cvec2] RVoid ["this"] (
  Assign (LFld (LVar "this") 0) (Bin Omul (Read (LFld (LVar "this") 0)) (Read (LFld (LVar "other") 0)));;
  Assign (LFld (LVar "this") 1) (Bin Omul (Read (LFld (LVar "this") 1)) (Read (LFld (LVar "other") 1)))).
(** src/vec2.cpp 47 *)
Definition c_vec2__op_mul_assign_float : fundef fn := Fun ["this"; "scalar"] [Tcls Cvec2; Tfloat] RVoid ["this"] (
  Assign (LFld (LVar "this") 0) (Bin Omul (Read (LFld (LVar "this") 0)) (Var "scalar"));;
  Assign (LFld (LVar "this") 1) (Bin Omul (Read (LFld (LVar "this") 1)) (Var "scalar"))).
(** src/vec2.cpp 48 *)
Definition c_vec2__op_div_assign_vec2 : fundef fn := Fun ["this"; "other"] [Tcls Cvec2; Tcls Cvec2] RVoid ["this"] (
  Assign (LFld (LVar "this") 0) (Bin Odiv (Read (LFld (LVar "this") 0)) (Read (LFld (LVar "other") 0)));;
  Assign (LFld (LVar "this") 1) (Bin Odiv (Read (LFld (LVar "this") 1)) (Read (LFld (LVar "other") 1)))).
(** src/vec2.cpp 48 *)
Definition c_vec2__op_div_assign_float : fundef fn := Fun ["this"; "scalar"] [Tcls Cvec2; Tfloat] RVoid ["this"] (
  Assign (LFld (LVar "this") 0) (Bin Odiv (Read (LFld (LVar "this") 0)) (Var "scalar"));;
  Assign (LFld (LVar "this") 1) (Bin Odiv (Read (LFld (LVar "this") 1)) (Var "scalar"))).
(** src/vec2.cpp 51-54 *)
Definition c_op_add_vec2 : fundef fn := Fun ["first"] [Tcls Cvec2] (RVal (Tcls Cvec2)) [] (
  Return (Call vec2__float_float <<Un Oplus (Read (LFld (LVar "first") 0)); Un Oplus (Read (LFld (LVar "first") 1))>>)).
(** src/vec2.cpp 56-59 *)
Definition c_op_sub_vec2 : fundef fn := Fun ["first"] [Tcls Cvec2] (RVal (Tcls Cvec2)) [] (
  Return (Call vec2__float_float <<Un Oneg (Read (LFld (LVar "first") 0)); Un Oneg (Read (LFld (LVar "first") 1))>>)).
(** src/vec2.cpp 61-66 *)
Definition c_vec2__preinc : fundef fn := Fun ["this"] [Tcls Cvec2] (RRef (Tcls Cvec2)) ["this"] (
  Assign (LFld (LVar "this") 0) (Bin Oadd (Read (LFld (LVar "this") 0)) (Lit 1 0));;
  Assign (LFld (LVar "this") 1) (Bin Oadd (Read (LFld (LVar "this") 1)) (Lit 1 0));;
  ReturnRef (LVar "this")).
(** src/vec2.cpp 68-74 *)
Definition c_vec2__postinc : fundef fn := Fun ["this"] [Tcls Cvec2] (RVal (Tcls Cvec2)) ["this"] (
  Decl "tmp" (Some (Var "this"));;
  Assign (LFld (LVar "this") 0) (Bin Oadd (Read (LFld (LVar "this") 0)) (Lit 1 0));;
  Assign (LFld (LVar "this") 1) (Bin Oadd (Read (LFld (LVar "this") 1)) (Lit 1 0));;
  Return (Var "tmp")).
(** src/vec2.cpp 76-81 *)
Definition c_vec2__predec : fundef fn := Fun ["this"] [Tcls Cvec2] (RRef (Tcls Cvec2)) ["this"] (
  Assign (LFld (LVar "this") 0) (Bin Osub (Read (LFld (LVar "this") 0)) (Lit 1 0));;
  Assign (LFld (LVar "this") 1) (Bin Osub (Read (LFld (LVar "this") 1)) (Lit 1 0));;
  ReturnRef (LVar "this")).
(** src/vec2.cpp 83-89 *)
Definition c_vec2__postdec : fundef fn := Fun ["this"] [Tcls Cvec2] (RVal (Tcls Cvec2)) ["this"] (
  Decl "tmp" (Some (Var "this"));;
  Assign (LFld (LVar "this") 0) (Bin Osub (Read (LFld (LVar "this") 0)) (Lit 1 0));;
  Assign (LFld (LVar "this") 1) (Bin Osub (Read (LFld (LVar "this") 1)) (Lit 1 0));;
  Return (Var "tmp")).
(** src/vec2.cpp 91-94 *)
Definition c_op_eq_vec2_vec2 : fundef fn := Fun ["first"; "second"] [Tcls Cvec2; Tcls Cvec2] (RVal Tbool) [] (
  Return (And (Bin Oeq (Read (LFld (LVar "first") 0)) (Read (LFld (LVar "second") 0))) (Bin Oeq (Read (LFld (LVar "first") 1)) (Read (LFld (LVar
    "second") 1))))).
(** src/vec2.cpp 96-99 *)
Definition c_op_ne_vec2_vec2 : fundef fn := Fun ["first"; "second"] [Tcls Cvec2; Tcls Cvec2] (RVal Tbool) [] (
  Return (Un Onot (Call op_eq_vec2_vec2 <<Var "first"; Var "second">>))).
(** src/vec2.cpp 102-106 *)
Definition c_vec2__index : fundef fn := Fun ["this"; "val"] [Tcls Cvec2; Tuint] (RRef Tfloat) [] (
  Assert (Bin Olt (Var "val") (UInt 3));;
  ReturnRef (LSub (LVar "this") (Var "val"))).
(** src/vec2.cpp 108-112 *)
Definition c_vec2__index_const : fundef fn := Fun ["this"; "val"] [Tcls Cvec2; Tuint] (RVal Tfloat) [] (
  Assert (Bin Olt (Var "val") (UInt 3));;
  Return (Read (LSub (LVar "this") (Var "val")))).

(** ** src/vec3.cpp *)
(** src/vec3.cpp 11-13 *)
Definition c_vec3__default : fundef fn := Fun [] [] (RVal (Tcls Cvec3)) [] (
  Decl "this" (Some (Call vec3__float <<Lit 0 0>>));;
  Made).
(** src/vec3.cpp 15-16 *)
Definition c_vec3__no_init_t : fundef fn := Fun [] [] (RVal (Tcls Cvec3)) [] (
  Decl "this" (Some (New Cvec3 ENil));;
  Made).
(** src/vec3.cpp 18-23 *)
Definition c_vec3__float : fundef fn := Fun ["value"] [Tfloat] (RVal (Tcls Cvec3)) [] (
  Decl "this" (Some (New Cvec3 ENil));;
  Assign (LFld (LVar "this") 0) (Var "value");;
  Assign (LFld (LVar "this") 1) (Var "value");;
  Assign (LFld (LVar "this") 2) (Var "value");;
  Made).
(** src/vec3.cpp 25-26 *)
Definition c_vec3__int : fundef fn := Fun ["value"] [Tint] (RVal (Tcls Cvec3)) [] (
  Decl "this" (Some (Call vec3__float <<Conv Tfloat (Var "value")>>));;
  Made).
(** src/vec3.cpp 28-33 *)
Definition c_vec3__float_float_float : fundef fn := Fun ["_x"; "_y"; "_z"] [Tfloat; Tfloat; Tfloat] (RVal (Tcls Cvec3)) [] (
  Decl "this" (Some (New Cvec3 ENil));;
  Assign (LFld (LVar "this") 0) (Var "_x");;
  Assign (LFld (LVar "this") 1) (Var "_y");;
  Assign (LFld (LVar "this") 2) (Var "_z");;
  Made).
(** src/vec3.cpp 35-40 *)
Definition c_vec3__vec2_float : fundef fn := Fun ["xy"; "_z"] [Tcls Cvec2; Tfloat] (RVal (Tcls Cvec3)) [] (
  Decl "this" (Some (New Cvec3 ENil));;
  Assign (LFld (LVar "this") 0) (Read (LFld (LVar "xy") 0));;
  Assign (LFld (LVar "this") 1) (Read (LFld (LVar "xy") 1));;
  Assign (LFld (LVar "this") 2) (Var "_z");;
  Made).
(** src/vec3.cpp 42-47 *)
Definition c_vec3__float_vec2 : fundef fn := Fun ["_x"; "yz"] [Tfloat; Tcls Cvec2] (RVal (Tcls Cvec3)) [] (
  Decl "this" (Some (New Cvec3 ENil));;
  Assign (LFld (LVar "this") 0) (Var "_x");;
  Assign (LFld (LVar "this") 1) (Read (LFld (LVar "yz") 0));;
  Assign (LFld (LVar "this") 2) (Read (LFld (LVar "yz") 1));;
  Made).
(** src/vec3.cpp 49-53 *)
Definition c_make_vec3_float_ptr : fundef fn := Fun ["ptr"] [Tptr Tfloat] (RVal (Tcls Cvec3)) [] (
  Assert (Conv Tbool (Var "ptr"));;
  Return (Call vec3__float_float_float <<Deref (Var "ptr") 0; Deref (Var "ptr") 1; Deref (Var "ptr") 2>>)).
(** src/vec3.cpp 56 *)
Definition c_op_add_vec3_vec3 : fundef fn := Fun ["first"; "second"] [Tcls Cvec3; Tcls Cvec3] (RVal (Tcls Cvec3)) [] (
  Return (Call vec3__float_float_float <<Bin Oadd (Read (LFld (LVar "first") 0)) (Read (LFld (LVar "second") 0)); Bin Oadd (Read (LFld (LVar "first")
    1)) (Read (LFld (LVar "second") 1)); Bin Oadd (Read (LFld (LVar "first") 2)) (Read (LFld (LVar "second") 2))>>)).
(** src/vec3.cpp 56 *)
Definition c_op_add_vec3_float : fundef fn := Fun ["vec"; "scalar"] [Tcls Cvec3; Tfloat] (RVal (Tcls Cvec3)) [] (
  Return (Call vec3__float_float_float <<Bin Oadd (Read (LFld (LVar "vec") 0)) (Var "scalar"); Bin Oadd (Read (LFld (LVar "vec") 1)) (Var "scalar"); Bin
    Oadd (Read (LFld (LVar "vec") 2)) (Var "scalar")>>)).
(** src/vec3.cpp 56 *)
Definition c_op_add_float_vec3 : fundef fn := Fun ["scalar"; "vec"] [Tfloat; Tcls Cvec3] (RVal (Tcls Cvec3)) [] (
  Return (Call vec3__float_float_float <<Bin Oadd (Var "scalar") (Read (LFld (LVar "vec") 0)); Bin Oadd (Var "scalar") (Read (LFld (LVar "vec") 1)); Bin
    Oadd (Var "scalar") (Read (LFld (LVar "vec") 2))>>)).
(** src/vec3.cpp 57 *)
Definition c_op_sub_vec3_vec3 : fundef fn := Fun ["first"; "second"] [Tcls Cvec3; Tcls Cvec3] (RVal (Tcls Cvec3)) [] (
  Return (Call vec3__float_float_float <<Bin Osub (Read (LFld (LVar "first") 0)) (Read (LFld (LVar "second") 0)); Bin Osub (Read (LFld (LVar "first")
    1)) (Read (LFld (LVar "second") 1)); Bin Osub (Read (LFld (LVar "first") 2)) (Read (LFld (LVar "second") 2))>>)).
(** src/vec3.cpp 57 *)
Definition c_op_sub_vec3_float : fundef fn := Fun ["vec"; "scalar"] [Tcls Cvec3; Tfloat] (RVal (Tcls Cvec3)) [] (
  Return (Call vec3__float_float_float <<Bin Osub (Read (LFld (LVar "vec") 0)) (Var "scalar"); Bin Osub (Read (LFld (LVar "vec") 1)) (Var "scalar"); Bin
    Osub (Read (LFld (LVar "vec") 2)) (Var "scalar")>>)).
(** src/vec3.cpp 57 *)
Definition c_op_sub_float_vec3 : fundef fn := Fun ["scalar"; "vec"] [Tfloat; Tcls Cvec3] (RVal (Tcls Cvec3)) [] (
  Return (Call vec3__float_float_float <<Bin Osub (Var "scalar") (Read (LFld (LVar "vec") 0)); Bin Osub (Var "scalar") (Read (LFld (LVar "vec") 1)); Bin
    Osub (Var "scalar") (Read (LFld (LVar "vec") 2))>>)).
(** src/vec3.cpp 58 *)
Definition c_op_mul_vec3_vec3 : fundef fn := Fun ["first"; "second"] [Tcls Cvec3; Tcls Cvec3] (RVal (Tcls Cvec3)) [] (
  Return (Call vec3__float_float_float <<Bin Omul (Read (LFld (LVar "first") 0)) (Read (LFld (LVar "second") 0)); Bin Omul (Read (LFld (LVar "first")
    1)) (Read (LFld (LVar "second") 1)); Bin Omul (Read (LFld (LVar "first") 2)) (Read (LFld (LVar "second") 2))>>)).
(** src/vec3.cpp 58 *)
Definition c_op_mul_vec3_float : fundef fn := Fun ["vec"; "scalar"] [Tcls Cvec3; Tfloat] (RVal (Tcls Cvec3)) [] (
  Return (Call vec3__float_float_float <<Bin Omul (Read (LFld (LVar "vec") 0)) (Var "scalar"); Bin Omul (Read (LFld (LVar "vec") 1)) (Var "scalar"); Bin
    Omul (Read (LFld (LVar "vec") 2)) (Var "scalar")>>)).
(** src/vec3.cpp 58 *)
Definition c_op_mul_float_vec3 : fundef fn := Fun ["scalar"; "vec"] [Tfloat; Tcls Cvec3] (RVal (Tcls Cvec3)) [] (
  Return (Call vec3__float_float_float <<Bin Omul (Var "scalar") (Read (LFld (LVar "vec") 0)); Bin Omul (Var "scalar") (Read (LFld (LVar "vec") 1)); Bin
    Omul (Var "scalar") (Read (LFld (LVar "vec") 2))>>)).
(** src/vec3.cpp 59 *)
Definition c_op_div_vec3_vec3 : fundef fn := Fun ["first"; "second"] [Tcls Cvec3; Tcls Cvec3] (RVal (Tcls Cvec3)) [] (
  Return (Call vec3__float_float_float <<Bin Odiv (Read (LFld (LVar "first") 0)) (Read (LFld (LVar "second") 0)); Bin Odiv (Read (LFld (LVar "first")
    1)) (Read (LFld (LVar "second") 1)); Bin Odiv (Read (LFld (LVar "first") 2)) (Read (LFld (LVar "second") 2))>>)).
(** src/vec3.cpp 59 *)
Definition c_op_div_vec3_float : fundef fn := Fun ["vec"; "scalar"] [Tcls Cvec3; Tfloat] (RVal (Tcls Cvec3)) [] (
  Return (Call vec3__float_float_float <<Bin Odiv (Read (LFld (LVar "vec") 0)) (Var "scalar"); Bin Odiv (Read (LFld (LVar "vec") 1)) (Var "scalar"); Bin
    Odiv (Read (LFld (LVar "vec") 2)) (Var "scalar")>>)).
(** src/vec3.cpp 59 *)
Definition c_op_div_float_vec3 : fundef fn := Fun ["scalar"; "vec"] [Tfloat; Tcls Cvec3] (RVal (Tcls Cvec3)) [] (
  Return (Call vec3__float_float_float <<Bin Odiv (Var "scalar") (Read (LFld (LVar "vec") 0)); Bin Odiv (Var "scalar") (Read (LFld (LVar "vec") 1)); Bin
    Odiv (Var "scalar") (Read (LFld (LVar "vec") 2))>>)).
(** src/vec3.cpp 62 *)
Definition c_vec3__op_add_assign_vec3 : fundef fn := Fun ["this"; "other"] [Tcls Cvec3; Tcls Cvec3] RVoid ["this"] (
  Assign (LFld (LVar "this") 0) (Bin Oadd (Read (LFld (LVar "this") 0)) (Read (LFld (LVar "other") 0)));;
  Assign (LFld (LVar "this") 1) (Bin Oadd (Read (LFld (LVar "this") 1)) (Read (LFld (LVar "other") 1)));;
  Assign (LFld (LVar "this") 2) (Bin Oadd (Read (LFld (LVar "this") 2)) (Read (LFld (LVar "other") 2)))).
(** src/vec3.cpp 62 *)
Definition c_vec3__op_add_assign_float : fundef fn := Fun ["this"; "scalar"] [Tcls Cvec3; Tfloat] RVoid ["this"] (
  Assign (LFld (LVar "this") 0) (Bin Oadd (Read (LFld (LVar "this") 0)) (Var "scalar"));;
  Assign (LFld (LVar "this") 1) (Bin Oadd (Read (LFld (LVar "this") 1)) (Var "scalar"));;
  Assign (LFld (LVar "this") 2) (Bin Oadd (Read (LFld (LVar "this") 2)) (Var "scalar"))).
(** src/vec3.cpp 63 *)
Definition c_vec3__op_sub_assign_vec3 : fundef fn := Fun ["this"; "other"] [Tcls Cvec3; Tcls Cvec3] RVoid ["this"] (
  Assign (LFld (LVar "this") 0) (Bin Osub (Read (LFld (LVar "this") 0)) (Read (LFld (LVar "other") 0)));;
  Assign (LFld (LVar "this") 1) (Bin Osub (Read (LFld (LVar "this") 1)) (Read (LFld (LVar "other") 1)));;
  Assign (LFld (LVar "this") 2) (Bin Osub (Read (LFld (LVar "this") 2)) (Read (LFld (LVar "other") 2)))).
(** src/vec3.cpp 63 *)
Definition c_vec3__op_sub_assign_float : fundef fn := Fun ["this"; "scalar"] [Tcls Cvec3; Tfloat] RVoid ["this"] (
  Assign (LFld (LVar "this") 0) (Bin Osub (Read (LFld (LVar "this") 0)) (Var "scalar"));;
  Assign (LFld (LVar "this") 1) (Bin Osub (Read (LFld (LVar "this") 1)) (Var "scalar"));;
  Assign (LFld (LVar "this") 2) (Bin Osub (Read (LFld (LVar "this") 2)) (Var "scalar"))).
(** src/vec3.cpp 64 *)
Definition c_vec3__op_mul_assign_vec3 : fundef fn := Fun ["this"; "other"] [Tcls Cvec3; Tcls Cvec3] RVoid ["this"] (
  Assign (LFld (LVar "this") 0) (Bin Omul (Read (LFld (LVar "this") 0)) (Read (LFld (LVar "other") 0)));;
  Assign (LFld (LVar "this") 1) (Bin Omul (Read (LFld (LVar "this") 1)) (Read (LFld (LVar "other") 1)));;
  Assign (LFld (LVar "this") 2) (Bin Omul (Read (LFld (LVar "this") 2)) (Read (LFld (LVar "other") 2)))).
(** src/vec3.cpp 64 *)
Definition c_vec3__op_mul_assign_float : fundef fn := Fun ["this"; "scalar"] [Tcls Cvec3; Tfloat] RVoid ["this"] (
  Assign (LFld (LVar "this") 0) (Bin Omul (Read (LFld (LVar "this") 0)) (Var "scalar"));;
  Assign (LFld (LVar "this") 1) (Bin Omul (Read (LFld (LVar "this") 1)) (Var "scalar"));;
  Assign (LFld (LVar "this") 2) (Bin Omul (Read (LFld (LVar "this") 2)) (Var "scalar"))).
(** src/vec3.cpp 65 *)
Definition c_vec3__op_div_assign_vec3 : fundef fn := Fun ["this"; "other"] [Tcls Cvec3; Tcls Cvec3] RVoid ["this"] (
  Assign (LFld (LVar "this") 0) (Bin Odiv (Read (LFld (LVar "this") 0)) (Read (LFld (LVar "other") 0)));;
  Assign (LFld (LVar "this") 1) (Bin Odiv (Read (LFld (LVar "this") 1)) (Read (LFld (LVar "other") 1)));;
  Assign (LFld (LVar "this") 2) (Bin Odiv (Read (LFld (LVar "this") 2)) (Read (LFld (LVar "other") 2)))).
(** src/vec3.cpp 65 *)
Definition c_vec3__op_div_assign_float : fundef fn := Fun ["this"; "scalar"] [Tcls Cvec3; Tfloat] RVoid ["this"] (
  Assign (LFld (LVar "this") 0) (Bin Odiv (Read (LFld (LVar "this") 0)) (Var "scalar"));;
  Assign (LFld (LVar "this") 1) (Bin Odiv (Read (LFld (LVar "this") 1)) (Var "scalar"));;
  Assign (LFld (LVar "this") 2) (Bin Odiv (Read (LFld (LVar "this") 2)) (Var "scalar"))).
(** src/vec3.cpp 68-71 *)
Definition c_op_sub_vec3 : fundef fn := Fun ["first"] [Tcls Cvec3] (RVal (Tcls Cvec3)) [] (
  Return (Call vec3__float_float_float <<Un Oneg (Read (LFld (LVar "first") 0)); Un Oneg (Read (LFld (LVar "first") 1)); Un Oneg (Read (LFld (LVar
    "first") 2))>>)).
(** src/vec3.cpp 73-76 *)
Definition c_op_add_vec3 : fundef fn := Fun ["first"] [Tcls Cvec3] (RVal (Tcls Cvec3)) [] (
  Return (Call vec3__float_float_float <<Un Oplus (Read (LFld (LVar "first") 0)); Un Oplus (Read (LFld (LVar "first") 1)); Un Oplus (Read (LFld (LVar
    "first") 2))>>)).
(** src/vec3.cpp 78-84 *)
Definition c_vec3__preinc : fundef fn := Fun ["this"] [Tcls Cvec3] (RRef (Tcls Cvec3)) ["this"] (
  Assign (LFld (LVar "this") 0) (Bin Oadd (Read (LFld (LVar "this") 0)) (Lit 1 0));;
  Assign (LFld (LVar "this") 1) (Bin Oadd (Read (LFld (LVar "this") 1)) (Lit 1 0));;
  Assign (LFld (LVar "this") 2) (Bin Oadd (Read (LFld (LVar "this") 2)) (Lit 1 0));;
  ReturnRef (LVar "this")).
(** src/vec3.cpp 86-93 *)
Definition c_vec3__postinc : fundef fn := Fun ["this"] [Tcls Cvec3] (RVal (Tcls Cvec3)) ["this"] (
  Decl "tmp" (Some (Var "this"));;
  Assign (LFld (LVar "this") 0) (Bin Oadd (Read (LFld (LVar "this") 0)) (Lit 1 0));;
  Assign (LFld (LVar "this") 1) (Bin Oadd (Read (LFld (LVar "this") 1)) (Lit 1 0));;
  Assign (LFld (LVar "this") 2) (Bin Oadd (Read (LFld (LVar "this") 2)) (Lit 1 0));;
  Return (Var "tmp")).
(** src/vec3.cpp 95-101 *)
Definition c_vec3__predec : fundef fn := Fun ["this"] [Tcls Cvec3] (RRef (Tcls Cvec3)) ["this"] (
  Assign (LFld (LVar "this") 0) (Bin Osub (Read (LFld (LVar "this") 0)) (Lit 1 0));;
  Assign (LFld (LVar "this") 1) (Bin Osub (Read (LFld (LVar "this") 1)) (Lit 1 0));;
  Assign (LFld (LVar "this") 2) (Bin Osub (Read (LFld (LVar "this") 2)) (Lit 1 0));;
  ReturnRef (LVar "this")).
(** src/vec3.cpp 103-110 *)
Definition c_vec3__postdec : fundef fn := Fun ["this"] [Tcls Cvec3] (RVal (Tcls Cvec3)) ["this"] (
  Decl "tmp" (Some (Var "this"));;
  Assign (LFld (LVar "this") 0) (Bin Osub (Read (LFld (LVar "this") 0)) (Lit 1 0));;
  Assign (LFld (LVar "this") 1) (Bin Osub (Read (LFld (LVar "this") 1)) (Lit 1 0));;
  Assign (LFld (LVar "this") 2) (Bin Osub (Read (LFld (LVar "this") 2)) (Lit 1 0));;
  Return (Var "tmp")).
(** src/vec3.cpp 112-115 *)
Definition c_op_eq_vec3_vec3 : fundef fn := Fun ["first"; "second"] [Tcls Cvec3; Tcls Cvec3] (RVal Tbool) [] (
  Return (And (And (Bin Oeq (Read (LFld (LVar "first") 0)) (Read (LFld (LVar "second") 0))) (Bin Oeq (Read (LFld (LVar "first") 1)) (Read (LFld (LVar
    "second") 1)))) (Bin Oeq (Read (LFld (LVar "first") 2)) (Read (LFld (LVar "second") 2))))).
(** src/vec3.cpp 117-120 *)
Definition c_op_ne_vec3_vec3 : fundef fn := Fun ["first"; "second"] [Tcls Cvec3; Tcls Cvec3] (RVal Tbool) [] (
  Return (Un Onot (Call op_eq_vec3_vec3 <<Var "first"; Var "second">>))).
(** src/vec3.cpp 123-127 *)
Definition c_vec3__index : fundef fn := Fun ["this"; "val"] [Tcls Cvec3; Tuint] (RRef Tfloat) [] (
  Assert (Bin Olt (Var "val") (UInt 3));;
  ReturnRef (LSub (LVar "this") (Var "val"))).
(** src/vec3.cpp 129-133 *)
Definition c_vec3__index_const : fundef fn := Fun ["this"; "val"] [Tcls Cvec3; Tuint] (RVal Tfloat) [] (
  Assert (Bin Olt (Var "val") (UInt 3));;
  Return (Read (LSub (LVar "this") (Var "val")))).

(** ** src/vec4.cpp *)
(** src/vec4.cpp 12-14 *)
Definition c_vec4__default : fundef fn := Fun [] [] (RVal (Tcls Cvec4)) [] (
  Decl "this" (Some (Call vec4__float <<Lit 0 0>>));;
  Made).
(** src/vec4.cpp 16-17 *)
Definition c_vec4__no_init_t : fundef fn := Fun [] [] (RVal (Tcls Cvec4)) [] (
  Decl "this" (Some (New Cvec4 ENil));;
  Made).
(** src/vec4.cpp 19-25 *)
Definition c_vec4__float : fundef fn := Fun ["value"] [Tfloat] (RVal (Tcls Cvec4)) [] (
  Decl "this" (Some (New Cvec4 ENil));;
  Assign (LFld (LVar "this") 0) (Var "value");;
  Assign (LFld (LVar "this") 1) (Var "value");;
  Assign (LFld (LVar "this") 2) (Var "value");;
  Assign (LFld (LVar "this") 3) (Var "value");;
  Made).
(** src/vec4.cpp 27-28 *)
Definition c_vec4__int : fundef fn := Fun ["value"] [Tint] (RVal (Tcls Cvec4)) [] (
  Decl "this" (Some (Call vec4__float <<Conv Tfloat (Var "value")>>));;
  Made).
(** src/vec4.cpp 30-36 *)
Definition c_vec4__float_float_float_float : fundef fn := Fun ["_x"; "_y"; "_z"; "_w"] [Tfloat; Tfloat; Tfloat; Tfloat] (RVal (Tcls Cvec4)) [] (
  Decl "this" (Some (New Cvec4 ENil));;
  Assign (LFld (LVar "this") 0) (Var "_x");;
  Assign (LFld (LVar "this") 1) (Var "_y");;
  Assign (LFld (LVar "this") 2) (Var "_z");;
  Assign (LFld (LVar "this") 3) (Var "_w");;
  Made).
(** src/vec4.cpp 38-44 *)
Definition c_vec4__vec3_float : fundef fn := Fun ["xyz"; "_w"] [Tcls Cvec3; Tfloat] (RVal (Tcls Cvec4)) [] (
  Decl "this" (Some (New Cvec4 ENil));;
  Assign (LFld (LVar "this") 0) (Read (LFld (LVar "xyz") 0));;
  Assign (LFld (LVar "this") 1) (Read (LFld (LVar "xyz") 1));;
  Assign (LFld (LVar "this") 2) (Read (LFld (LVar "xyz") 2));;
  Assign (LFld (LVar "this") 3) (Var "_w");;
  Made).
(** src/vec4.cpp 46-52 *)
Definition c_vec4__float_vec3 : fundef fn := Fun ["_x"; "yzw"] [Tfloat; Tcls Cvec3] (RVal (Tcls Cvec4)) [] (
  Decl "this" (Some (New Cvec4 ENil));;
  Assign (LFld (LVar "this") 0) (Var "_x");;
  Assign (LFld (LVar "this") 1) (Read (LFld (LVar "yzw") 0));;
  Assign (LFld (LVar "this") 2) (Read (LFld (LVar "yzw") 1));;
  Assign (LFld (LVar "this") 3) (Read (LFld (LVar "yzw") 2));;
  Made).
(** src/vec4.cpp 54-60 *)
Definition c_vec4__vec2_vec2 : fundef fn := Fun ["xy"; "zw"] [Tcls Cvec2; Tcls Cvec2] (RVal (Tcls Cvec4)) [] (
  Decl "this" (Some (New Cvec4 ENil));;
  Assign (LFld (LVar "this") 0) (Read (LFld (LVar "xy") 0));;
  Assign (LFld (LVar "this") 1) (Read (LFld (LVar "xy") 1));;
  Assign (LFld (LVar "this") 2) (Read (LFld (LVar "zw") 0));;
  Assign (LFld (LVar "this") 3) (Read (LFld (LVar "zw") 1));;
  Made).
(** src/vec4.cpp 62-68 *)
Definition c_vec4__vec2_float_float : fundef fn := Fun ["xy"; "_z"; "_w"] [Tcls Cvec2; Tfloat; Tfloat] (RVal (Tcls Cvec4)) [] (
  Decl "this" (Some (New Cvec4 ENil));;
  Assign (LFld (LVar "this") 0) (Read (LFld (LVar "xy") 0));;
  Assign (LFld (LVar "this") 1) (Read (LFld (LVar "xy") 1));;
  Assign (LFld (LVar "this") 2) (Var "_z");;
  Assign (LFld (LVar "this") 3) (Var "_w");;
  Made).
(** src/vec4.cpp 70-76 *)
Definition c_vec4__float_vec2_float : fundef fn := Fun ["_x"; "yz"; "_w"] [Tfloat; Tcls Cvec2; Tfloat] (RVal (Tcls Cvec4)) [] (
  Decl "this" (Some (New Cvec4 ENil));;
  Assign (LFld (LVar "this") 0) (Var "_x");;
  Assign (LFld (LVar "this") 1) (Read (LFld (LVar "yz") 0));;
  Assign (LFld (LVar "this") 2) (Read (LFld (LVar "yz") 1));;
  Assign (LFld (LVar "this") 3) (Var "_w");;
  Made).
(** src/vec4.cpp 78-84 *)
Definition c_vec4__float_float_vec2 : fundef fn := Fun ["_x"; "_y"; "zw"] [Tfloat; Tfloat; Tcls Cvec2] (RVal (Tcls Cvec4)) [] (
  Decl "this" (Some (New Cvec4 ENil));;
  Assign (LFld (LVar "this") 0) (Var "_x");;
  Assign (LFld (LVar "this") 1) (Var "_y");;
  Assign (LFld (LVar "this") 2) (Read (LFld (LVar "zw") 0));;
  Assign (LFld (LVar "this") 3) (Read (LFld (LVar "zw") 1));;
  Made).
(** src/vec4.cpp 86-90 *)
Definition c_make_vec4_float_ptr : fundef fn := Fun ["ptr"] [Tptr Tfloat] (RVal (Tcls Cvec4)) [] (
  Assert (Conv Tbool (Var "ptr"));;
  Return (Call vec4__float_float_float_float <<Deref (Var "ptr") 0; Deref (Var "ptr") 1; Deref (Var "ptr") 2; Deref (Var "ptr") 3>>)).
(** src/vec4.cpp 93 *)
Definition c_op_add_vec4_vec4 : fundef fn := Fun ["first"; "second"] [Tcls Cvec4; Tcls Cvec4] (RVal (Tcls Cvec4)) [] (
  Return (Call vec4__float_float_float_float <<Bin Oadd (Read (LFld (LVar "first") 0)) (Read (LFld (LVar "second") 0)); Bin Oadd (Read (LFld (LVar
    "first") 1)) (Read (LFld (LVar "second") 1)); Bin Oadd (Read (LFld (LVar "first") 2)) (Read (LFld (LVar "second") 2)); Bin Oadd (Read (LFld (LVar
    "first") 3)) (Read (LFld (LVar "second") 3))>>)).
(** src/vec4.cpp 93 *)
Definition c_op_add_vec4_float : fundef fn := Fun ["vec"; "scalar"] [Tcls Cvec4; Tfloat] (RVal (Tcls Cvec4)) [] (
  Return (Call vec4__float_float_float_float <<Bin Oadd (Read (LFld (LVar "vec") 0)) (Var "scalar"); Bin Oadd (Read (LFld (LVar "vec") 1)) (Var
    "scalar"); Bin Oadd (Read (LFld (LVar "vec") 2)) (Var "scalar"); Bin Oadd (Read (LFld (LVar "vec") 3)) (Var "scalar")>>)).
(** src/vec4.cpp 93 *)
Definition c_op_add_float_vec4 : fundef fn := Fun ["scalar"; "vec"] [Tfloat; Tcls Cvec4] (RVal (Tcls Cvec4)) [] (
  Return (Call vec4__float_float_float_float <<Bin Oadd (Var "scalar") (Read (LFld (LVar "vec") 0)); Bin Oadd (Var "scalar") (Read (LFld (LVar "vec")
    1)); Bin Oadd (Var "scalar") (Read (LFld (LVar "vec") 2)); Bin Oadd (Var "scalar") (Read (LFld (LVar "vec") 3))>>)).
(** src/vec4.cpp 94 *)
Definition c_op_sub_vec4_vec4 : fundef fn := Fun ["first"; "second"] [Tcls Cvec4; Tcls Cvec4] (RVal (Tcls Cvec4)) [] (
  Return (Call vec4__float_float_float_float <<Bin Osub (Read (LFld (LVar "first") 0)) (Read (LFld (LVar "second") 0)); Bin Osub (Read (LFld (LVar
    "first") 1)) (Read (LFld (LVar "second") 1)); Bin Osub (Read (LFld (LVar "first") 2)) (Read (LFld (LVar "second") 2)); Bin Osub (Read (LFld (LVar
    "first") 3)) (Read (LFld (LVar "second") 3))>>)).
(** src/vec4.cpp 94 *)
Definition c_op_sub_vec4_float : fundef fn := Fun ["vec"; "scalar"] [Tcls Cvec4; Tfloat] (RVal (Tcls Cvec4)) [] (
  Return (Call vec4__float_float_float_float <<Bin Osub (Read (LFld (LVar "vec") 0)) (Var "scalar"); Bin Osub (Read (LFld (LVar "vec") 1)) (Var
    "scalar"); Bin Osub (Read (LFld (LVar "vec") 2)) (Var "scalar"); Bin Osub (Read (LFld (LVar "vec") 3)) (Var "scalar")>>)).
(** src/vec4.cpp 94 *)
Definition c_op_sub_float_vec4 : fundef fn := Fun ["scalar"; "vec"] [Tfloat; Tcls Cvec4] (RVal (Tcls Cvec4)) [] (
  Return (Call vec4__float_float_float_float <<Bin Osub (Var "scalar") (Read (LFld (LVar "vec") 0)); Bin Osub (Var "scalar") (Read (LFld (LVar "vec")
    1)); Bin Osub (Var "scalar") (Read (LFld (LVar "vec") 2)); Bin Osub (Var "scalar") (Read (LFld (LVar "vec") 3))>>)).
(** src/vec4.cpp 95 *)
Definition c_op_mul_vec4_vec4 : fundef fn := Fun ["first"; "second"] [Tcls Cvec4; Tcls Cvec4] (RVal (Tcls Cvec4)) [] (
  Return (Call vec4__float_float_float_float <<Bin Omul (Read (LFld (LVar "first") 0)) (Read (LFld (LVar "second") 0)); Bin Omul (Read (LFld (LVar
    "first") 1)) (Read (LFld (LVar "second") 1)); Bin Omul (Read (LFld (LVar "first") 2)) (Read (LFld (LVar "second") 2)); Bin Omul (Read (LFld (LVar
    "first") 3)) (Read (LFld (LVar "second") 3))>>)).
(** src/vec4.cpp 95 *)
Definition c_op_mul_vec4_float : fundef fn := Fun ["vec"; "scalar"] [Tcls Cvec4; Tfloat] (RVal (Tcls Cvec4)) [] (
  Return (Call vec4__float_float_float_float <<Bin Omul (Read (LFld (LVar "vec") 0)) (Var "scalar"); Bin Omul (Read (LFld (LVar "vec") 1)) (Var
    "scalar"); Bin Omul (Read (LFld (LVar "vec") 2)) (Var "scalar"); Bin Omul (Read (LFld (LVar "vec") 3)) (Var "scalar")>>)).
(** src/vec4.cpp 95 *)
Definition c_op_mul_float_vec4 : fundef fn := Fun ["scalar"; "vec"] [Tfloat; Tcls Cvec4] (RVal (Tcls Cvec4)) [] (
  Return (Call vec4__float_float_float_float <<Bin Omul (Var "scalar") (Read (LFld (LVar "vec") 0)); Bin Omul (Var "scalar") (Read (LFld (LVar "vec")
    1)); Bin Omul (Var "scalar") (Read (LFld (LVar "vec") 2)); Bin Omul (Var "scalar") (Read (LFld (LVar "vec") 3))>>)).
(** src/vec4.cpp 96 *)
Definition c_op_div_vec4_vec4 : fundef fn := Fun ["first"; "second"] [Tcls Cvec4; Tcls Cvec4] (RVal (Tcls Cvec4)) [] (
  Return (Call vec4__float_float_float_float <<Bin Odiv (Read (LFld (LVar "first") 0)) (Read (LFld (LVar "second") 0)); Bin Odiv (Read (LFld (LVar
    "first") 1)) (Read (LFld (LVar "second") 1)); Bin Odiv (Read (LFld (LVar "first") 2)) (Read (LFld (LVar "second") 2)); Bin Odiv (Read (LFld (LVar
    "first") 3)) (Read (LFld (LVar "second") 3))>>)).
(** src/vec4.cpp 96 *)
Definition c_op_div_vec4_float : fundef fn := Fun ["vec"; "scalar"] [Tcls Cvec4; Tfloat] (RVal (Tcls Cvec4)) [] (
  Return (Call vec4__float_float_float_float <<Bin Odiv (Read (LFld (LVar "vec") 0)) (Var "scalar"); Bin Odiv (Read (LFld (LVar "vec") 1)) (Var
    "scalar"); Bin Odiv (Read (LFld (LVar "vec") 2)) (Var "scalar"); Bin Odiv (Read (LFld (LVar "vec") 3)) (Var "scalar")>>)).
(** src/vec4.cpp 96 *)
Definition c_op_div_float_vec4 : fundef fn := Fun ["scalar"; "vec"] [Tfloat; Tcls Cvec4] (RVal (Tcls Cvec4)) [] (
  Return (Call vec4__float_float_float_float <<Bin Odiv (Var "scalar") (Read (LFld (LVar "vec") 0)); Bin Odiv (Var "scalar") (Read (LFld (LVar "vec")
    1)); Bin Odiv (Var "scalar") (Read (LFld (LVar "vec") 2)); Bin Odiv (Var "scalar") (Read (LFld (LVar "vec") 3))>>)).
(** src/vec4.cpp 99 *)
Definition c_vec4__op_add_assign_vec4 : fundef fn := Fun ["this"; "other"] [Tcls Cvec4; Tcls Cvec4] RVoid ["this"] (
  Assign (LFld (LVar "this") 0) (Bin Oadd (Read (LFld (LVar "this") 0)) (Read (LFld (LVar "other") 0)));;
  Assign (LFld (LVar "this") 1) (Bin Oadd (Read (LFld (LVar "this") 1)) (Read (LFld (LVar "other") 1)));;
  Assign (LFld (LVar "this") 2) (Bin Oadd (Read (LFld (LVar "this") 2)) (Read (LFld (LVar "other") 2)));;
  Assign (LFld (LVar "this") 3) (Bin Oadd (Read (LFld (LVar "this") 3)) (Read (LFld (LVar "other") 3)))).
(** src/vec4.cpp 99 *)
Definition c_vec4__op_add_assign_float : fundef fn := Fun ["this"; "scalar"] [Tcls Cvec4; Tfloat] RVoid ["this"] (
  Assign (LFld (LVar "this") 0) (Bin Oadd (Read (LFld (LVar "this") 0)) (Var "scalar"));;
  Assign (LFld (LVar "this") 1) (Bin Oadd (Read (LFld (LVar "this") 1)) (Var "scalar"));;
  Assign (LFld (LVar "this") 2) (Bin Oadd (Read (LFld (LVar "this") 2)) (Var "scalar"));;
  Assign (LFld (LVar "this") 3) (Bin Oadd (Read (LFld (LVar "this") 3)) (Var "scalar"))).
(** src/vec4.cpp 100 *)
Definition c_vec4__op_sub_assign_vec4 : fundef fn := Fun ["this"; "other"] [Tcls Cvec4; Tcls Cvec4] RVoid ["this"] (
  Assign (LFld (LVar "this") 0) (Bin Osub (Read (LFld (LVar "this") 0)) (Read (LFld (LVar "other") 0)));;
  Assign (LFld (LVar "this") 1) (Bin Osub (Read (LFld (LVar "this") 1)) (Read (LFld (LVar "other") 1)));;
  Assign (LFld (LVar "this") 2) (Bin Osub (Read (LFld (LVar "this") 2)) (Read (LFld (LVar "other") 2)));;
  Assign (LFld (LVar "this") 3) (Bin Osub (Read (LFld (LVar "this") 3)) (Read (LFld (LVar "other") 3)))).
(** src/vec4.cpp 100 *)
Definition c_vec4__op_sub_assign_float : fundef fn := Fun ["this"; "scalar"] [Tcls Cvec4; Tfloat] RVoid ["this"] (
  Assign (LFld (LVar "this") 0) (Bin Osub (Read (LFld (LVar "this") 0)) (Var "scalar"));;
  Assign (LFld (LVar "this") 1) (Bin Osub (Read (LFld (LVar "this") 1)) (Var "scalar"));;
  Assign (LFld (LVar "this") 2) (Bin Osub (Read (LFld (LVar "this") 2)) (Var "scalar"));;
  Assign (LFld (LVar "this") 3) (Bin Osub (Read (LFld (LVar "this") 3)) (Var "scalar"))).
(** src/vec4.cpp 101 *)
Definition c_vec4__op_mul_assign_vec4 : fundef fn := Fun ["this"; "other"] [Tcls Cvec4; Tcls Cvec4] RVoid ["this"] (
  Assign (LFld (LVar "this") 0) (Bin Omul (Read (LFld (LVar "this") 0)) (Read (LFld (LVar "other") 0)));;
  Assign (LFld (LVar "this") 1) (Bin Omul (Read (LFld (LVar "this") 1)) (Read (LFld (LVar "other") 1)));;
  Assign (LFld (LVar "this") 2) (Bin Omul (Read (LFld (LVar "this") 2)) (Read (LFld (LVar "other") 2)));;
  Assign (LFld (LVar "this") 3) (Bin Omul (Read (LFld (LVar "this") 3)) (Read (LFld (LVar "other") 3)))).
(** src/vec4.cpp 101 *)
Definition c_vec4__op_mul_assign_float : fundef fn := Fun ["this"; "scalar"] [Tcls Cvec4; Tfloat] RVoid ["this"] (
  Assign (LFld (LVar "this") 0) (Bin Omul (Read (LFld (LVar "this") 0)) (Var "scalar"));;
  Assign (LFld (LVar "this") 1) (Bin Omul (Read (LFld (LVar "this") 1)) (Var "scalar"));;
  Assign (LFld (LVar "this") 2) (Bin Omul (Read (LFld (LVar "this") 2)) (Var "scalar"));;
  Assign (LFld (LVar "this") 3) (Bin Omul (Read (LFld (LVar "this") 3)) (Var "scalar"))).
(** src/vec4.cpp 102 *)
Definition c_vec4__op_div_assign_vec4 : fundef fn := Fun ["this"; "other"] [Tcls Cvec4; Tcls Cvec4] RVoid ["this"] (
  Assign (LFld (LVar "this") 0) (Bin Odiv (Read (LFld (LVar "this") 0)) (Read (LFld (LVar "other") 0)));;
  Assign (LFld (LVar "this") 1) (Bin Odiv (Read (LFld (LVar "this") 1)) (Read (LFld (LVar "other") 1)));;
  Assign (LFld (LVar "this") 2) (Bin Odiv (Read (LFld (LVar "this") 2)) (Read (LFld (LVar "other") 2)));;
  Assign (LFld (LVar "this") 3) (Bin Odiv (Read (LFld (LVar "this") 3)) (Read (LFld (LVar "other") 3)))).
(** src/vec4.cpp 102 *)
Definition c_vec4__op_div_assign_float : fundef fn := Fun ["this"; "scalar"] [Tcls Cvec4; Tfloat] RVoid ["this"] (
  Assign (LFld (LVar "this") 0) (Bin Odiv (Read (LFld (LVar "this") 0)) (Var "scalar"));;
  Assign (LFld (LVar "this") 1) (Bin Odiv (Read (LFld (LVar "this") 1)) (Var "scalar"));;
  Assign (LFld (LVar "this") 2) (Bin Odiv (Read (LFld (LVar "this") 2)) (Var "scalar"));;
  Assign (LFld (LVar "this") 3) (Bin Odiv (Read (LFld (LVar "this") 3)) (Var "scalar"))).
(** src/vec4.cpp 106-112 *)
Definition c_op_sub_vec4 : fundef fn := Fun ["first"] [Tcls Cvec4] (RVal (Tcls Cvec4)) [] (
  Return (Call vec4__float_float_float_float <<Un Oneg (Read (LFld (LVar "first") 0)); Un Oneg (Read (LFld (LVar "first") 1)); Un Oneg (Read (LFld (LVar
    "first") 2)); Un Oneg (Read (LFld (LVar "first") 3))>>)).
(** src/vec4.cpp 115-121 *)
Definition c_op_add_vec4 : fundef fn := Fun ["first"] [Tcls Cvec4] (RVal (Tcls Cvec4)) [] (
  Return (Call vec4__float_float_float_float <<Un Oplus (Read (LFld (LVar "first") 0)); Un Oplus (Read (LFld (LVar "first") 1)); Un Oplus (Read (LFld
    (LVar "first") 2)); Un Oplus (Read (LFld (LVar "first") 3))>>)).
(** src/vec4.cpp 123-130 *)
Definition c_vec4__preinc : fundef fn := Fun ["this"] [Tcls Cvec4] (RRef (Tcls Cvec4)) ["this"] (
  Assign (LFld (LVar "this") 0) (Bin Oadd (Read (LFld (LVar "this") 0)) (Lit 1 0));;
  Assign (LFld (LVar "this") 1) (Bin Oadd (Read (LFld (LVar "this") 1)) (Lit 1 0));;
  Assign (LFld (LVar "this") 2) (Bin Oadd (Read (LFld (LVar "this") 2)) (Lit 1 0));;
  Assign (LFld (LVar "this") 3) (Bin Oadd (Read (LFld (LVar "this") 3)) (Lit 1 0));;
  ReturnRef (LVar "this")).
(** src/vec4.cpp 132-140 *)
Definition c_vec4__postinc : fundef fn := Fun ["this"] [Tcls Cvec4] (RVal (Tcls Cvec4)) ["this"] (
  Decl "tmp" (Some (Var "this"));;
  Assign (LFld (LVar "this") 0) (Bin Oadd (Read (LFld (LVar "this") 0)) (Lit 1 0));;
  Assign (LFld (LVar "this") 1) (Bin Oadd (Read (LFld (LVar "this") 1)) (Lit 1 0));;
  Assign (LFld (LVar "this") 2) (Bin Oadd (Read (LFld (LVar "this") 2)) (Lit 1 0));;
  Assign (LFld (LVar "this") 3) (Bin Oadd (Read (LFld (LVar "this") 3)) (Lit 1 0));;
  Return (Var "tmp")).
(** src/vec4.cpp 142-149 *)
Definition c_vec4__predec : fundef fn := Fun ["this"] [Tcls Cvec4] (RRef (Tcls Cvec4)) ["this"] (
  Assign (LFld (LVar "this") 0) (Bin Osub (Read (LFld (LVar "this") 0)) (Lit 1 0));;
  Assign (LFld (LVar "this") 1) (Bin Osub (Read (LFld (LVar "this") 1)) (Lit 1 0));;
  Assign (LFld (LVar "this") 2) (Bin Osub (Read (LFld (LVar "this") 2)) (Lit 1 0));;
  Assign (LFld (LVar "this") 3) (Bin Osub (Read (LFld (LVar "this") 3)) (Lit 1 0));;
  ReturnRef (LVar "this")).
(** src/vec4.cpp 151-159 *)
Definition c_vec4__postdec : fundef fn := Fun ["this"] [Tcls Cvec4] (RVal (Tcls Cvec4)) ["this"] (
  Decl "tmp" (Some (Var "this"));;
  Assign (LFld (LVar "this") 0) (Bin Osub (Read (LFld (LVar "this") 0)) (Lit 1 0));;
  Assign (LFld (LVar "this") 1) (Bin Osub (Read (LFld (LVar "this") 1)) (Lit 1 0));;
  Assign (LFld (LVar "this") 2) (Bin Osub (Read (LFld (LVar "this") 2)) (Lit 1 0));;
  Assign (LFld (LVar "this") 3) (Bin Osub (Read (LFld (LVar "this") 3)) (Lit 1 0));;
  Return (Var "tmp")).
(** src/vec4.cpp 161-164 *)
Definition c_op_eq_vec4_vec4 : fundef fn := Fun ["first"; "second"] [Tcls Cvec4; Tcls Cvec4] (RVal Tbool) [] (
  Return (And (And (And (Bin Oeq (Read (LFld (LVar "first") 0)) (Read (LFld (LVar "second") 0))) (Bin Oeq (Read (LFld (LVar "first") 1)) (Read (LFld
    (LVar "second") 1)))) (Bin Oeq (Read (LFld (LVar "first") 2)) (Read (LFld (LVar "second") 2)))) (Bin Oeq (Read (LFld (LVar "first") 3)) (Read
    (LFld (LVar "second") 3))))).
(** src/vec4.cpp 166-169 *)
Definition c_op_ne_vec4_vec4 : fundef fn := Fun ["first"; "second"] [Tcls Cvec4; Tcls Cvec4] (RVal Tbool) [] (
  Return (Un Onot (Call op_eq_vec4_vec4 <<Var "first"; Var "second">>))).
(** src/vec4.cpp 171-175 *)
Definition c_vec4__index : fundef fn := Fun ["this"; "val"] [Tcls Cvec4; Tuint] (RRef Tfloat) [] (
  Assert (Bin Olt (Var "val") (UInt 4));;
  ReturnRef (LSub (LVar "this") (Var "val"))).
(** src/vec4.cpp 177-181 *)
Definition c_vec4__index_const : fundef fn := Fun ["this"; "val"] [Tcls Cvec4; Tuint] (RVal Tfloat) [] (
  Assert (Bin Olt (Var "val") (UInt 4));;
  Return (Read (LSub (LVar "this") (Var "val")))).

(** ** src/ivec2.cpp *)
(** src/ivec2.cpp 10-12 *)
Definition c_ivec2__default : fundef fn := Fun [] [] (RVal (Tcls Civec2)) [] (
  Decl "this" (Some (Call ivec2__int <<Int 0>>));;
  Made).
(** src/ivec2.cpp 14-15 *)
Definition c_ivec2__no_init_t : fundef fn := Fun [] [] (RVal (Tcls Civec2)) [] (
  Decl "this" (Some (New Civec2 ENil));;
  Made).
(** src/ivec2.cpp 17-21 *)
Definition c_ivec2__int : fundef fn := Fun ["value"] [Tint] (RVal (Tcls Civec2)) [] (
  Decl "this" (Some (New Civec2 ENil));;
  Assign (LFld (LVar "this") 0) (Var "value");;
  Assign (LFld (LVar "this") 1) (Var "value");;
  Made).
(** src/ivec2.cpp 23-27 *)
Definition c_ivec2__int_int : fundef fn := Fun ["_x"; "_y"] [Tint; Tint] (RVal (Tcls Civec2)) [] (
  Decl "this" (Some (New Civec2 ENil));;
  Assign (LFld (LVar "this") 0) (Var "_x");;
  Assign (LFld (LVar "this") 1) (Var "_y");;
  Made).
(** src/ivec2.cpp 29-33 *)
Definition c_op_add_ivec2 : fundef fn := Fun ["first"] [Tcls Civec2] (RVal (Tcls Civec2)) [] (
  Return (Call ivec2__int_int <<Un Oplus (Read (LFld (LVar "first") 0)); Un Oplus (Read (LFld (LVar "first") 1))>>)).
(** src/ivec2.cpp 35-39 *)
Definition c_op_sub_ivec2 : fundef fn := Fun ["first"] [Tcls Civec2] (RVal (Tcls Civec2)) [] (
  Return (Call ivec2__int_int <<Un Oneg (Read (LFld (LVar "first") 0)); Un Oneg (Read (LFld (LVar "first") 1))>>)).
(** src/ivec2.cpp 41-45 *)
Definition c_make_ivec2_int_ptr : fundef fn := Fun ["ptr"] [Tptr Tint] (RVal (Tcls Civec2)) [] (
  Assert (Conv Tbool (Var "ptr"));;
  Return (Call ivec2__int_int <<Deref (Var "ptr") 0; Deref (Var "ptr") 1>>)).
(** src/ivec2.cpp 48 *)
Definition c_op_add_ivec2_ivec2 : fundef fn := Fun ["first"; "second"] [Tcls Civec2; Tcls Civec2] (RVal (Tcls Civec2)) [] (
  Return (Call ivec2__int_int <<Bin Oadd (Read (LFld (LVar "first") 0)) (Read (LFld (LVar "second") 0)); Bin Oadd (Read (LFld (LVar "first") 1)) (Read
    (LFld (LVar "second") 1))>>)).
(** src/ivec2.cpp 48 *)
Definition c_op_add_ivec2_int : fundef fn := Fun ["vec"; "scalar"] [Tcls Civec2; Tint] (RVal (Tcls Civec2)) [] (
  Return (Call ivec2__int_int <<Bin Oadd (Read (LFld (LVar "vec") 0)) (Var "scalar"); Bin Oadd (Read (LFld (LVar "vec") 1)) (Var "scalar")>>)).
(** src/ivec2.cpp 48 *)
Definition c_op_add_int_ivec2 : fundef fn := Fun ["scalar"; "vec"] [Tint; Tcls Civec2] (RVal (Tcls Civec2)) [] (
  Return (Call ivec2__int_int <<Bin Oadd (Var "scalar") (Read (LFld (LVar "vec") 0)); Bin Oadd (Var "scalar") (Read (LFld (LVar "vec") 1))>>)).
(** src/ivec2.cpp 49 *)
Definition c_op_sub_ivec2_ivec2 : fundef fn := Fun ["first"; "second"] [Tcls Civec2; Tcls Civec2] (RVal (Tcls Civec2)) [] (
  Return (Call ivec2__int_int <<Bin Osub (Read (LFld (LVar "first") 0)) (Read (LFld (LVar "second") 0)); Bin Osub (Read (LFld (LVar "first") 1)) (Read
    (LFld (LVar "second") 1))>>)).
(** src/ivec2.cpp 49 *)
Definition c_op_sub_ivec2_int : fundef fn := Fun ["vec"; "scalar"] [Tcls Civec2; Tint] (RVal (Tcls Civec2)) [] (
  Return (Call ivec2__int_int <<Bin Osub (Read (LFld (LVar "vec") 0)) (Var "scalar"); Bin Osub (Read (LFld (LVar "vec") 1)) (Var "scalar")>>)).
(** src/ivec2.cpp 49 *)
Definition c_op_sub_int_ivec2 : fundef fn := Fun ["scalar"; "vec"] [Tint; Tcls Civec2] (RVal (Tcls Civec2)) [] (
  Return (Call ivec2__int_int <<Bin Osub (Var "scalar") (Read (LFld (LVar "vec") 0)); Bin Osub (Var "scalar") (Read (LFld (LVar "vec") 1))>>)).
(** src/ivec2.cpp 50 *)
Definition c_op_mul_ivec2_ivec2 : fundef fn := Fun ["first"; "second"] [Tcls Civec2; Tcls Civec2] (RVal (Tcls Civec2)) [] (
  Return (Call ivec2__int_int <<Bin Omul (Read (LFld (LVar "first") 0)) (Read (LFld (LVar "second") 0)); Bin Omul (Read (LFld (LVar "first") 1)) (Read
    (LFld (LVar "second") 1))>>)).
(** src/ivec2.cpp 50 *)
Definition c_op_mul_ivec2_int : fundef fn := Fun ["vec"; "scalar"] [Tcls Civec2; Tint] (RVal (Tcls Civec2)) [] (
  Return (Call ivec2__int_int <<Bin Omul (Read (LFld (LVar "vec") 0)) (Var "scalar"); Bin Omul (Read (LFld (LVar "vec") 1)) (Var "scalar")>>)).
(** src/ivec2.cpp 50 *)
Definition c_op_mul_int_ivec2 : fundef fn := Fun ["scalar"; "vec"] [Tint; Tcls Civec2] (RVal (Tcls Civec2)) [] (
  Return (Call ivec2__int_int <<Bin Omul (Var "scalar") (Read (LFld (LVar "vec") 0)); Bin Omul (Var "scalar") (Read (LFld (LVar "vec") 1))>>)).
(** src/ivec2.cpp 51 *)
Definition c_op_div_ivec2_ivec2 : fundef fn := Fun ["first"; "second"] [Tcls Civec2; Tcls Civec2] (RVal (Tcls Civec2)) [] (
  Return (Call ivec2__int_int <<Bin Odiv (Read (LFld (LVar "first") 0)) (Read (LFld (LVar "second") 0)); Bin Odiv (Read (LFld (LVar "first") 1)) (Read
    (LFld (LVar "second") 1))>>)).
(** src/ivec2.cpp 51 *)
Definition c_op_div_ivec2_int : fundef fn := Fun ["vec"; "scalar"] [Tcls Civec2; Tint] (RVal (Tcls Civec2)) [] (
  Return (Call ivec2__int_int <<Bin Odiv (Read (LFld (LVar "vec") 0)) (Var "scalar"); Bin Odiv (Read (LFld (LVar "vec") 1)) (Var "scalar")>>)).
(** src/ivec2.cpp 51 *)
Definition c_op_div_int_ivec2 : fundef fn := Fun ["scalar"; "vec"] [Tint; Tcls Civec2] (RVal (Tcls Civec2)) [] (
  Return (Call ivec2__int_int <<Bin Odiv (Var "scalar") (Read (LFld (LVar "vec") 0)); Bin Odiv (Var "scalar") (Read (LFld (LVar "vec") 1))>>)).
(** src/ivec2.cpp 52 *)
Definition c_op_rem_ivec2_ivec2 : fundef fn := Fun ["first"; "second"] [Tcls Civec2; Tcls Civec2] (RVal (Tcls Civec2)) [] (
  Return (Call ivec2__int_int <<Bin Orem (Read (LFld (LVar "first") 0)) (Read (LFld (LVar "second") 0)); Bin Orem (Read (LFld (LVar "first") 1)) (Read
    (LFld (LVar "second") 1))>>)).
(** src/ivec2.cpp 52 *)
Definition c_op_rem_ivec2_int : fundef fn := Fun ["vec"; "scalar"] [Tcls Civec2; Tint] (RVal (Tcls Civec2)) [] (
  Return (Call ivec2__int_int <<Bin Orem (Read (LFld (LVar "vec") 0)) (Var "scalar"); Bin Orem (Read (LFld (LVar "vec") 1)) (Var "scalar")>>)).
(** src/ivec2.cpp 52 *)
Definition c_op_rem_int_ivec2 : fundef fn := Fun ["scalar"; "vec"] [Tint; Tcls Civec2] (RVal (Tcls Civec2)) [] (
  Return (Call ivec2__int_int <<Bin Orem (Var "scalar") (Read (LFld (LVar "vec") 0)); Bin Orem (Var "scalar") (Read (LFld (LVar "vec") 1))>>)).
(** src/ivec2.cpp 53 *)
Definition c_op_or_ivec2_ivec2 : fundef fn := Fun ["first"; "second"] [Tcls Civec2; Tcls Civec2] (RVal (Tcls Civec2)) [] (
  Return (Call ivec2__int_int <<Bin Oor (Read (LFld (LVar "first") 0)) (Read (LFld (LVar "second") 0)); Bin Oor (Read (LFld (LVar "first") 1)) (Read
    (LFld (LVar "second") 1))>>)).
(** src/ivec2.cpp 53 *)
Definition c_op_or_ivec2_int : fundef fn := Fun ["vec"; "scalar"] [Tcls Civec2; Tint] (RVal (Tcls Civec2)) [] (
  Return (Call ivec2__int_int <<Bin Oor (Read (LFld (LVar "vec") 0)) (Var "scalar"); Bin Oor (Read (LFld (LVar "vec") 1)) (Var "scalar")>>)).
(** src/ivec2.cpp 53 *)
Definition c_op_or_int_ivec2 : fundef fn := Fun ["scalar"; "vec"] [Tint; Tcls Civec2] (RVal (Tcls Civec2)) [] (
  Return (Call ivec2__int_int <<Bin Oor (Var "scalar") (Read (LFld (LVar "vec") 0)); Bin Oor (Var "scalar") (Read (LFld (LVar "vec") 1))>>)).
(** src/ivec2.cpp 54 *)
Definition c_op_and_ivec2_ivec2 : fundef fn := Fun ["first"; "second"] [Tcls Civec2; Tcls Civec2] (RVal (Tcls Civec2)) [] (
  Return (Call ivec2__int_int <<Bin Oand (Read (LFld (LVar "first") 0)) (Read (LFld (LVar "second") 0)); Bin Oand (Read (LFld (LVar "first") 1)) (Read
    (LFld (LVar "second") 1))>>)).
(** src/ivec2.cpp 54 *)
Definition c_op_and_ivec2_int : fundef fn := Fun ["vec"; "scalar"] [Tcls Civec2; Tint] (RVal (Tcls Civec2)) [] (
  Return (Call ivec2__int_int <<Bin Oand (Read (LFld (LVar "vec") 0)) (Var "scalar"); Bin Oand (Read (LFld (LVar "vec") 1)) (Var "scalar")>>)).
(** src/ivec2.cpp 54 *)
Definition c_op_and_int_ivec2 : fundef fn := Fun ["scalar"; "vec"] [Tint; Tcls Civec2] (RVal (Tcls Civec2)) [] (
  Return (Call ivec2__int_int <<Bin Oand (Var "scalar") (Read (LFld (LVar "vec") 0)); Bin Oand (Var "scalar") (Read (LFld (LVar "vec") 1))>>)).
(** src/ivec2.cpp 55 *)
Definition c_op_xor_ivec2_ivec2 : fundef fn := Fun ["first"; "second"] [Tcls Civec2; Tcls Civec2] (RVal (Tcls Civec2)) [] (
  Return (Call ivec2__int_int <<Bin Oxor (Read (LFld (LVar "first") 0)) (Read (LFld (LVar "second") 0)); Bin Oxor (Read (LFld (LVar "first") 1)) (Read
    (LFld (LVar "second") 1))>>)).
(** src/ivec2.cpp 55 *)
Definition c_op_xor_ivec2_int : fundef fn := Fun ["vec"; "scalar"] [Tcls Civec2; Tint] (RVal (Tcls Civec2)) [] (
  Return (Call ivec2__int_int <<Bin Oxor (Read (LFld (LVar "vec") 0)) (Var "scalar"); Bin Oxor (Read (LFld (LVar "vec") 1)) (Var "scalar")>>)).
(** src/ivec2.cpp 55 *)
Definition c_op_xor_int_ivec2 : fundef fn := Fun ["scalar"; "vec"] [Tint; Tcls Civec2] (RVal (Tcls Civec2)) [] (
  Return (Call ivec2__int_int <<Bin Oxor (Var "scalar") (Read (LFld (LVar "vec") 0)); Bin Oxor (Var "scalar") (Read (LFld (LVar "vec") 1))>>)).
(** src/ivec2.cpp 56 *)
Definition c_op_shr_ivec2_ivec2 : fundef fn := Fun ["first"; "second"] [Tcls Civec2; Tcls Civec2] (RVal (Tcls Civec2)) [] (
  Return (Call ivec2__int_int <<Bin Oshr (Read (LFld (LVar "first") 0)) (Read (LFld (LVar "second") 0)); Bin Oshr (Read (LFld (LVar "first") 1)) (Read
    (LFld (LVar "second") 1))>>)).
(** src/ivec2.cpp 56 *)
Definition c_op_shr_ivec2_int : fundef fn := Fun ["vec"; "scalar"] [Tcls Civec2; Tint] (RVal (Tcls Civec2)) [] (
  Return (Call ivec2__int_int <<Bin Oshr (Read (LFld (LVar "vec") 0)) (Var "scalar"); Bin Oshr (Read (LFld (LVar "vec") 1)) (Var "scalar")>>)).
(** src/ivec2.cpp 56 *)
Definition c_op_shr_int_ivec2 : fundef fn := Fun ["scalar"; "vec"] [Tint; Tcls Civec2] (RVal (Tcls Civec2)) [] (
  Return (Call ivec2__int_int <<Bin Oshr (Var "scalar") (Read (LFld (LVar "vec") 0)); Bin Oshr (Var "scalar") (Read (LFld (LVar "vec") 1))>>)).
(** src/ivec2.cpp 57 *)
Definition c_op_shl_ivec2_ivec2 : fundef fn := Fun ["first"; "second"] [Tcls Civec2; Tcls Civec2] (RVal (Tcls Civec2)) [] (
  Return (Call ivec2__int_int <<Bin Oshl (Read (LFld (LVar "first") 0)) (Read (LFld (LVar "second") 0)); Bin Oshl (Read (LFld (LVar "first") 1)) (Read
    (LFld (LVar "second") 1))>>)).
(** src/ivec2.cpp 57 *)
Definition c_op_shl_ivec2_int : fundef fn := Fun ["vec"; "scalar"] [Tcls Civec2; Tint] (RVal (Tcls Civec2)) [] (
  Return (Call ivec2__int_int <<Bin Oshl (Read (LFld (LVar "vec") 0)) (Var "scalar"); Bin Oshl (Read (LFld (LVar "vec") 1)) (Var "scalar")>>)).
(** src/ivec2.cpp 57 *)
Definition c_op_shl_int_ivec2 : fundef fn := Fun ["scalar"; "vec"] [Tint; Tcls Civec2] (RVal (Tcls Civec2)) [] (
  Return (Call ivec2__int_int <<Bin Oshl (Var "scalar") (Read (LFld (LVar "vec") 0)); Bin Oshl (Var "scalar") (Read (LFld (LVar "vec") 1))>>)).
(** src/ivec2.cpp 60 *)
Definition c_ivec2__op_add_assign_ivec2 : fundef fn := Fun ["this"; "other"] [Tcls Civec2; Tcls Civec2] RVoid ["this"] (
  Assign (LFld (LVar "this") 0) (Bin Oadd (Read (LFld (LVar "this") 0)) (Read (LFld (LVar "other") 0)));;
  Assign (LFld (LVar "this") 1) (Bin Oadd (Read (LFld (LVar "this") 1)) (Read (LFld (LVar "other") 1)))).
(** src/ivec2.cpp 60 *)
Definition c_ivec2__op_add_assign_int : fundef fn := Fun ["this"; "scalar"] [Tcls Civec2; Tint] RVoid ["this"] (
  Assign (LFld (LVar "this") 0) (Bin Oadd (Read (LFld (LVar "this") 0)) (Var "scalar"));;
  Assign (LFld (LVar "this") 1) (Bin Oadd (Read (LFld (LVar "this") 1)) (Var "scalar"))).
(** src/ivec2.cpp 61 *)
Definition c_ivec2__op_sub_assign_ivec2 : fundef fn := Fun ["this"; "other"] [Tcls Civec2; Tcls Civec2] RVoid ["this"] (
  Assign (LFld (LVar "this") 0) (Bin Osub (Read (LFld (LVar "this") 0)) (Read (LFld (LVar "other") 0)));;
  Assign (LFld (LVar "this") 1) (Bin Osub (Read (LFld (LVar "this") 1)) (Read (LFld (LVar "other") 1)))).
(** src/ivec2.cpp 61 *)
Definition c_ivec2__op_sub_assign_int : fundef fn := Fun ["this"; "scalar"] [Tcls Civec2; Tint] RVoid ["this"] (
  Assign (LFld (LVar "this") 0) (Bin Osub (Read (LFld (LVar "this") 0)) (Var "scalar"));;
  Assign (LFld (LVar "this") 1) (Bin Osub (Read (LFld (LVar "this") 1)) (Var "scalar"))).
(** src/ivec2.cpp 62 *)
Definition c_ivec2__op_mul_assign_ivec2 : fundef fn := Fun ["this"; "other"] [Tcls Civec2; Tcls Civec2] RVoid ["this"] (
  Assign (LFld (LVar "this") 0) (Bin Omul (Read (LFld (LVar "this") 0)) (Read (LFld (LVar "other") 0)));;
  Assign (LFld (LVar "this") 1) (Bin Omul (Read (LFld (LVar "this") 1)) (Read (LFld (LVar "other") 1)))).
(** src/ivec2.cpp 62 *)
Definition c_ivec2__op_mul_assign_int : fundef fn := Fun ["this"; "scalar"] [Tcls Civec2; Tint] RVoid ["this"] (
  Assign (LFld (LVar "this") 0) (Bin Omul (Read (LFld (LVar "this") 0)) (Var "scalar"));;
  Assign (LFld (LVar "this") 1) (Bin Omul (Read (LFld (LVar "this") 1)) (Var "scalar"))).
(** src/ivec2.cpp 63 *)
Definition c_ivec2__op_div_assign_ivec2 : fundef fn := Fun ["this"; "other"] [Tcls Civec2; Tcls Civec2] RVoid ["this"] (
  Assign (LFld (LVar "this") 0) (Bin Odiv (Read (LFld (LVar "this") 0)) (Read (LFld (LVar "other") 0)));;
  Assign (LFld (LVar "this") 1) (Bin Odiv (Read (LFld (LVar "this") 1)) (Read (LFld (LVar "other") 1)))).
(** src/ivec2.cpp 63 *)
Definition c_ivec2__op_div_assign_int : fundef fn := Fun ["this"; "scalar"] [Tcls Civec2; Tint] RVoid ["this"] (
  Assign (LFld (LVar "this") 0) (Bin Odiv (Read (LFld (LVar "this") 0)) (Var "scalar"));;
  Assign (LFld (LVar "this") 1) (Bin Odiv (Read (LFld (LVar "this") 1)) (Var "scalar"))).
(** src/ivec2.cpp 64 *)
Definition c_ivec2__op_rem_assign_ivec2 : fundef fn := Fun ["this"; "other"] [Tcls Civec2; Tcls Civec2] RVoid ["this"] (
  Assign (LFld (LVar "this") 0) (Bin Orem (Read (LFld (LVar "this") 0)) (Read (LFld (LVar "other") 0)));;
  Assign (LFld (LVar "this") 1) (Bin Orem (Read (LFld (LVar "this") 1)) (Read (LFld (LVar "other") 1)))).
(** src/ivec2.cpp 64 *)
Definition c_ivec2__op_rem_assign_int : fundef fn := Fun ["this"; "scalar"] [Tcls Civec2; Tint] RVoid ["this"] (
  Assign (LFld (LVar "this") 0) (Bin Orem (Read (LFld (LVar "this") 0)) (Var "scalar"));;
  Assign (LFld (LVar "this") 1) (Bin Orem (Read (LFld (LVar "this") 1)) (Var "scalar"))).
(** src/ivec2.cpp 65 *)
Definition c_ivec2__op_or_assign_ivec2 : fundef fn := Fun ["this"; "other"] [Tcls Civec2; Tcls Civec2] RVoid ["this"] (
  Assign (LFld (LVar "this") 0) (Bin Oor (Read (LFld (LVar "this") 0)) (Read (LFld (LVar "other") 0)));;
  Assign (LFld (LVar "this") 1) (Bin Oor (Read (LFld (LVar "this") 1)) (Read (LFld (LVar "other") 1)))).
(** src/ivec2.cpp 65 *)
Definition c_ivec2__op_or_assign_int : fundef fn := Fun ["this"; "scalar"] [Tcls Civec2; Tint] RVoid ["this"] (
  Assign (LFld (LVar "this") 0) (Bin Oor (Read (LFld (LVar "this") 0)) (Var "scalar"));;
  Assign (LFld (LVar "this") 1) (Bin Oor (Read (LFld (LVar "this") 1)) (Var "scalar"))).
(** src/ivec2.cpp 66 *)
Definition c_ivec2__op_and_assign_ivec2 : fundef fn := Fun ["this"; "other"] [Tcls Civec2; Tcls Civec2] RVoid ["this"] (
  Assign (LFld (LVar "this") 0) (Bin Oand (Read (LFld (LVar "this") 0)) (Read (LFld (LVar "other") 0)));;
  Assign (LFld (LVar "this") 1) (Bin Oand (Read (LFld (LVar "this") 1)) (Read (LFld (LVar "other") 1)))).
(** src/ivec2.cpp 66 *)
Definition c_ivec2__op_and_assign_int : fundef fn := Fun ["this"; "scalar"] [Tcls Civec2; Tint] RVoid ["this"] (
  Assign (LFld (LVar "this") 0) (Bin Oand (Read (LFld (LVar "this") 0)) (Var "scalar"));;
  Assign (LFld (LVar "this") 1) (Bin Oand (Read (LFld (LVar "this") 1)) (Var "scalar"))).
(** src/ivec2.cpp 67 *)
Definition c_ivec2__op_xor_assign_ivec2 : fundef fn := Fun ["this"; "other"] [Tcls Civec2; Tcls Civec2] RVoid ["this"] (
  Assign (LFld (LVar "this") 0) (Bin Oxor (Read (LFld (LVar "this") 0)) (Read (LFld (LVar "other") 0)));;
  Assign (LFld (LVar "this") 1) (Bin Oxor (Read (LFld (LVar "this") 1)) (Read (LFld (LVar "other") 1)))).
(** src/ivec2.cpp 67 *)
Definition c_ivec2__op_xor_assign_int : fundef fn := Fun ["this"; "scalar"] [Tcls Civec2; Tint] RVoid ["this"] (
  Assign (LFld (LVar "this") 0) (Bin Oxor (Read (LFld (LVar "this") 0)) (Var "scalar"));;
  Assign (LFld (LVar "this") 1) (Bin Oxor (Read (LFld (LVar "this") 1)) (Var "scalar"))).
(** src/ivec2.cpp 68 *)
Definition c_ivec2__op_shr_assign_ivec2 : fundef fn := Fun ["this"; "other"] [Tcls Civec2; Tcls Civec2] RVoid ["this"] (
  Assign (LFld (LVar "this") 0) (Bin Oshr (Read (LFld (LVar "this") 0)) (Read (LFld (LVar "other") 0)));;
  Assign (LFld (LVar "this") 1) (Bin Oshr (Read (LFld (LVar "this") 1)) (Read (LFld (LVar "other") 1)))).
(** src/ivec2.cpp 68 *)
Definition c_ivec2__op_shr_assign_int : fundef fn := Fun ["this"; "scalar"] [Tcls Civec2; Tint] RVoid ["this"] (
  Assign (LFld (LVar "this") 0) (Bin Oshr (Read (LFld (LVar "this") 0)) (Var "scalar"));;
  Assign (LFld (LVar "this") 1) (Bin Oshr (Read (LFld (LVar "this") 1)) (Var "scalar"))).
(** src/ivec2.cpp 69 *)
Definition c_ivec2__op_shl_assign_ivec2 : fundef fn := Fun ["this"; "other"] [Tcls Civec2; Tcls Civec2] RVoid ["this"] (
  Assign (LFld (LVar "this") 0) (Bin Oshl (Read (LFld (LVar "this") 0)) (Read (LFld (LVar "other") 0)));;
  Assign (LFld (LVar "this") 1) (Bin Oshl (Read (LFld (LVar "this") 1)) (Read (LFld (LVar "other") 1)))).
(** src/ivec2.cpp 69 *)
Definition c_ivec2__op_shl_assign_int : fundef fn := Fun ["this"; "scalar"] [Tcls Civec2; Tint] RVoid ["this"] (
  Assign (LFld (LVar "this") 0) (Bin Oshl (Read (LFld (LVar "this") 0)) (Var "scalar"));;
  Assign (LFld (LVar "this") 1) (Bin Oshl (Read (LFld (LVar "this") 1)) (Var "scalar"))).
(** src/ivec2.cpp 72-75 *)
Definition c_op_eq_ivec2_ivec2 : fundef fn := Fun ["first"; "second"] [Tcls Civec2; Tcls Civec2] (RVal Tbool) [] (
  Return (And (Bin Oeq (Read (LFld (LVar "first") 0)) (Read (LFld (LVar "second") 0))) (Bin Oeq (Read (LFld (LVar "first") 1)) (Read (LFld (LVar
    "second") 1))))).
(** src/ivec2.cpp 77-80 *)
Definition c_op_ne_ivec2_ivec2 : fundef fn := Fun ["first"; "second"] [Tcls Civec2; Tcls Civec2] (RVal Tbool) [] (
  Return (Un Onot (Call op_eq_ivec2_ivec2 <<Var "first"; Var "second">>))).
(** src/ivec2.cpp 82-88 *)
Definition c_op_lt_ivec2_ivec2 : fundef fn := Fun ["first"; "second"] [Tcls Civec2; Tcls Civec2] (RVal Tbool) [] (
  If (Bin Olt (Read (LFld (LVar "first") 0)) (Read (LFld (LVar "second") 0))) (Return (Bool true)) Skip;;
  If (Bin Ogt (Read (LFld (LVar "first") 0)) (Read (LFld (LVar "second") 0))) (Return (Bool false)) Skip;;
  If (Bin Olt (Read (LFld (LVar "first") 1)) (Read (LFld (LVar "second") 1))) (Return (Bool true)) Skip;;
  Return (Bool false)).
(** src/ivec2.cpp 90-93 *)
Definition c_op_le_ivec2_ivec2 : fundef fn := Fun ["first"; "second"] [Tcls Civec2; Tcls Civec2] (RVal Tbool) [] (
  Return (Un Onot (Call op_lt_ivec2_ivec2 <<Var "second"; Var "first">>))).
(** src/ivec2.cpp 96-99 *)
Definition c_op_gt_ivec2_ivec2 : fundef fn := Fun ["first"; "second"] [Tcls Civec2; Tcls Civec2] (RVal Tbool) [] (
  Return (Call op_lt_ivec2_ivec2 <<Var "second"; Var "first">>)).
(** src/ivec2.cpp 101-104 *)
Definition c_op_ge_ivec2_ivec2 : fundef fn := Fun ["first"; "second"] [Tcls Civec2; Tcls Civec2] (RVal Tbool) [] (
  Return (Un Onot (Call op_lt_ivec2_ivec2 <<Var "first"; Var "second">>))).
(** src/ivec2.cpp 106-110 *)
Definition c_ivec2__index : fundef fn := Fun ["this"; "val"] [Tcls Civec2; Tuint] (RRef Tint) [] (
  Assert (Bin Olt (Var "val") (UInt 3));;
  ReturnRef (LSub (LVar "this") (Var "val"))).
(** src/ivec2.cpp 112-116 *)
Definition c_ivec2__index_const : fundef fn := Fun ["this"; "val"] [Tcls Civec2; Tuint] (RVal Tint) [] (
  Assert (Bin Olt (Var "val") (UInt 3));;
  Return (Read (LSub (LVar "this") (Var "val")))).
(** src/ivec2.cpp 118-121 *)
Definition c_ivec2__to_bvec2 : fundef fn := Fun ["this"] [Tcls Civec2] (RVal (Tcls Cbvec2)) [] (
  Return (Call bvec2__bool_bool <<Conv Tbool (Read (LFld (LVar "this") 0)); Conv Tbool (Read (LFld (LVar "this") 1))>>)).
(** src/ivec2.cpp 123-128 *)
Definition c_ivec2__preinc : fundef fn := Fun ["this"] [Tcls Civec2] (RRef (Tcls Civec2)) ["this"] (
  Assign (LFld (LVar "this") 0) (Bin Oadd (Read (LFld (LVar "this") 0)) (Int 1));;
  Assign (LFld (LVar "this") 1) (Bin Oadd (Read (LFld (LVar "this") 1)) (Int 1));;
  ReturnRef (LVar "this")).
(** src/ivec2.cpp 130-136 *)
Definition c_ivec2__postinc : fundef fn := Fun ["this"] [Tcls Civec2] (RVal (Tcls Civec2)) ["this"] (
  Decl "tmp" (Some (Var "this"));;
  Assign (LFld (LVar "this") 0) (Bin Oadd (Read (LFld (LVar "this") 0)) (Int 1));;
  Assign (LFld (LVar "this") 1) (Bin Oadd (Read (LFld (LVar "this") 1)) (Int 1));;
  Return (Var "tmp")).
(** src/ivec2.cpp 138-143 *)
Definition c_ivec2__predec : fundef fn := Fun ["this"] [Tcls Civec2] (RRef (Tcls Civec2)) ["this"] (
  Assign (LFld (LVar "this") 0) (Bin Osub (Read (LFld (LVar "this") 0)) (Int 1));;
  Assign (LFld (LVar "this") 1) (Bin Osub (Read (LFld (LVar "this") 1)) (Int 1));;
  ReturnRef (LVar "this")).
(** src/ivec2.cpp 145-151 *)
Definition c_ivec2__postdec : fundef fn := Fun ["this"] [Tcls Civec2] (RVal (Tcls Civec2)) ["this"] (
  Decl "tmp" (Some (Var "this"));;
  Assign (LFld (LVar "this") 0) (Bin Osub (Read (LFld (LVar "this") 0)) (Int 1));;
  Assign (LFld (LVar "this") 1) (Bin Osub (Read (LFld (LVar "this") 1)) (Int 1));;
  Return (Var "tmp")).

(** ** src/ivec3.cpp *)
(** src/ivec3.cpp 11-13 *)
Definition c_ivec3__default : fundef fn := Fun [] [] (RVal (Tcls Civec3)) [] (
  Decl "this" (Some (Call ivec3__int <<Int 0>>));;
  Made).
(** src/ivec3.cpp 15-16 *)
Definition c_ivec3__no_init_t : fundef fn := Fun [] [] (RVal (Tcls Civec3)) [] (
  Decl "this" (Some (New Civec3 ENil));;
  Made).
(** src/ivec3.cpp 18-23 *)
Definition c_ivec3__int : fundef fn := Fun ["value"] [Tint] (RVal (Tcls Civec3)) [] (
  Decl "this" (Some (New Civec3 ENil));;
  Assign (LFld (LVar "this") 0) (Var "value");;
  Assign (LFld (LVar "this") 1) (Var "value");;
  Assign (LFld (LVar "this") 2) (Var "value");;
  Made).
(** src/ivec3.cpp 25-30 *)
Definition c_ivec3__int_int_int : fundef fn := Fun ["_x"; "_y"; "_z"] [Tint; Tint; Tint] (RVal (Tcls Civec3)) [] (
  Decl "this" (Some (New Civec3 ENil));;
  Assign (LFld (LVar "this") 0) (Var "_x");;
  Assign (LFld (LVar "this") 1) (Var "_y");;
  Assign (LFld (LVar "this") 2) (Var "_z");;
  Made).
(** src/ivec3.cpp 32-37 *)
Definition c_ivec3__ivec2_int : fundef fn := Fun ["xy"; "_z"] [Tcls Civec2; Tint] (RVal (Tcls Civec3)) [] (
  Decl "this" (Some (New Civec3 ENil));;
  Assign (LFld (LVar "this") 0) (Read (LFld (LVar "xy") 0));;
  Assign (LFld (LVar "this") 1) (Read (LFld (LVar "xy") 1));;
  Assign (LFld (LVar "this") 2) (Var "_z");;
  Made).
(** src/ivec3.cpp 39-44 *)
Definition c_ivec3__int_ivec2 : fundef fn := Fun ["_x"; "yz"] [Tint; Tcls Civec2] (RVal (Tcls Civec3)) [] (
  Decl "this" (Some (New Civec3 ENil));;
  Assign (LFld (LVar "this") 0) (Var "_x");;
  Assign (LFld (LVar "this") 1) (Read (LFld (LVar "yz") 0));;
  Assign (LFld (LVar "this") 2) (Read (LFld (LVar "yz") 1));;
  Made).
(** src/ivec3.cpp 46-50 *)
Definition c_make_ivec3_int_ptr : fundef fn := Fun ["ptr"] [Tptr Tint] (RVal (Tcls Civec3)) [] (
  Assert (Conv Tbool (Var "ptr"));;
  Return (Call ivec3__int_int_int <<Deref (Var "ptr") 0; Deref (Var "ptr") 1; Deref (Var "ptr") 2>>)).
(** src/ivec3.cpp 54 *)
Definition c_op_add_ivec3_ivec3 : fundef fn := Fun ["first"; "second"] [Tcls Civec3; Tcls Civec3] (RVal (Tcls Civec3)) [] (
  Return (Call ivec3__int_int_int <<Bin Oadd (Read (LFld (LVar "first") 0)) (Read (LFld (LVar "second") 0)); Bin Oadd (Read (LFld (LVar "first") 1))
    (Read (LFld (LVar "second") 1)); Bin Oadd (Read (LFld (LVar "first") 2)) (Read (LFld (LVar "second") 2))>>)).
(** src/ivec3.cpp 54 *)
Definition c_op_add_ivec3_int : fundef fn := Fun ["vec"; "scalar"] [Tcls Civec3; Tint] (RVal (Tcls Civec3)) [] (
  Return (Call ivec3__int_int_int <<Bin Oadd (Read (LFld (LVar "vec") 0)) (Var "scalar"); Bin Oadd (Read (LFld (LVar "vec") 1)) (Var "scalar"); Bin Oadd
    (Read (LFld (LVar "vec") 2)) (Var "scalar")>>)).
(** src/ivec3.cpp 54 *)
Definition c_op_add_int_ivec3 : fundef fn := Fun ["scalar"; "vec"] [Tint; Tcls Civec3] (RVal (Tcls Civec3)) [] (
  Return (Call ivec3__int_int_int <<Bin Oadd (Var "scalar") (Read (LFld (LVar "vec") 0)); Bin Oadd (Var "scalar") (Read (LFld (LVar "vec") 1)); Bin Oadd
    (Var "scalar") (Read (LFld (LVar "vec") 2))>>)).
(** src/ivec3.cpp 55 *)
Definition c_op_sub_ivec3_ivec3 : fundef fn := Fun ["first"; "second"] [Tcls Civec3; Tcls Civec3] (RVal (Tcls Civec3)) [] (
  Return (Call ivec3__int_int_int <<Bin Osub (Read (LFld (LVar "first") 0)) (Read (LFld (LVar "second") 0)); Bin Osub (Read (LFld (LVar "first") 1))
    (Read (LFld (LVar "second") 1)); Bin Osub (Read (LFld (LVar "first") 2)) (Read (LFld (LVar "second") 2))>>)).
(** src/ivec3.cpp 55 *)
Definition c_op_sub_ivec3_int : fundef fn := Fun ["vec"; "scalar"] [Tcls Civec3; Tint] (RVal (Tcls Civec3)) [] (
  Return (Call ivec3__int_int_int <<Bin Osub (Read (LFld (LVar "vec") 0)) (Var "scalar"); Bin Osub (Read (LFld (LVar "vec") 1)) (Var "scalar"); Bin Osub
    (Read (LFld (LVar "vec") 2)) (Var "scalar")>>)).
(** src/ivec3.cpp 55 *)
Definition c_op_sub_int_ivec3 : fundef fn := Fun ["scalar"; "vec"] [Tint; Tcls Civec3] (RVal (Tcls Civec3)) [] (
  Return (Call ivec3__int_int_int <<Bin Osub (Var "scalar") (Read (LFld (LVar "vec") 0)); Bin Osub (Var "scalar") (Read (LFld (LVar "vec") 1)); Bin Osub
    (Var "scalar") (Read (LFld (LVar "vec") 2))>>)).
(** src/ivec3.cpp 56 *)
Definition c_op_mul_ivec3_ivec3 : fundef fn := Fun ["first"; "second"] [Tcls Civec3; Tcls Civec3] (RVal (Tcls Civec3)) [] (
  Return (Call ivec3__int_int_int <<Bin Omul (Read (LFld (LVar "first") 0)) (Read (LFld (LVar "second") 0)); Bin Omul (Read (LFld (LVar "first") 1))
    (Read (LFld (LVar "second") 1)); Bin Omul (Read (LFld (LVar "first") 2)) (Read (LFld (LVar "second") 2))>>)).
(** src/ivec3.cpp 56 *)
Definition c_op_mul_ivec3_int : fundef fn := Fun ["vec"; "scalar"] [Tcls Civec3; Tint] (RVal (Tcls Civec3)) [] (
  Return (Call ivec3__int_int_int <<Bin Omul (Read (LFld (LVar "vec") 0)) (Var "scalar"); Bin Omul (Read (LFld (LVar "vec") 1)) (Var "scalar"); Bin Omul
    (Read (LFld (LVar "vec") 2)) (Var "scalar")>>)).
(** src/ivec3.cpp 56 *)
Definition c_op_mul_int_ivec3 : fundef fn := Fun ["scalar"; "vec"] [Tint; Tcls Civec3] (RVal (Tcls Civec3)) [] (
  Return (Call ivec3__int_int_int <<Bin Omul (Var "scalar") (Read (LFld (LVar "vec") 0)); Bin Omul (Var "scalar") (Read (LFld (LVar "vec") 1)); Bin Omul
    (Var "scalar") (Read (LFld (LVar "vec") 2))>>)).
(** src/ivec3.cpp 57 *)
Definition c_op_div_ivec3_ivec3 : fundef fn := Fun ["first"; "second"] [Tcls Civec3; Tcls Civec3] (RVal (Tcls Civec3)) [] (
  Return (Call ivec3__int_int_int <<Bin Odiv (Read (LFld (LVar "first") 0)) (Read (LFld (LVar "second") 0)); Bin Odiv (Read (LFld (LVar "first") 1))
    (Read (LFld (LVar "second") 1)); Bin Odiv (Read (LFld (LVar "first") 2)) (Read (LFld (LVar "second") 2))>>)).
(** src/ivec3.cpp 57 *)
Definition c_op_div_ivec3_int : fundef fn := Fun ["vec"; "scalar"] [Tcls Civec3; Tint] (RVal (Tcls Civec3)) [] (
  Return (Call ivec3__int_int_int <<Bin Odiv (Read (LFld (LVar "vec") 0)) (Var "scalar"); Bin Odiv (Read (LFld (LVar "vec") 1)) (Var "scalar"); Bin Odiv
    (Read (LFld (LVar "vec") 2)) (Var "scalar")>>)).
(** src/ivec3.cpp 57 *)
Definition c_op_div_int_ivec3 : fundef fn := Fun ["scalar"; "vec"] [Tint; Tcls Civec3] (RVal (Tcls Civec3)) [] (
  Return (Call ivec3__int_int_int <<Bin Odiv (Var "scalar") (Read (LFld (LVar "vec") 0)); Bin Odiv (Var "scalar") (Read (LFld (LVar "vec") 1)); Bin Odiv
    (Var "scalar") (Read (LFld (LVar "vec") 2))>>)).
(** src/ivec3.cpp 58 *)
Definition c_op_rem_ivec3_ivec3 : fundef fn := Fun ["first"; "second"] [Tcls Civec3; Tcls Civec3] (RVal (Tcls Civec3)) [] (
  Return (Call ivec3__int_int_int <<Bin Orem (Read (LFld (LVar "first") 0)) (Read (LFld (LVar "second") 0)); Bin Orem (Read (LFld (LVar "first") 1))
    (Read (LFld (LVar "second") 1)); Bin Orem (Read (LFld (LVar "first") 2)) (Read (LFld (LVar "second") 2))>>)).
(** src/ivec3.cpp 58 *)
Definition c_op_rem_ivec3_int : fundef fn := Fun ["vec"; "scalar"] [Tcls Civec3; Tint] (RVal (Tcls Civec3)) [] (
  Return (Call ivec3__int_int_int <<Bin Orem (Read (LFld (LVar "vec") 0)) (Var "scalar"); Bin Orem (Read (LFld (LVar "vec") 1)) (Var "scalar"); Bin Orem
    (Read (LFld (LVar "vec") 2)) (Var "scalar")>>)).
(** src/ivec3.cpp 58 *)
Definition c_op_rem_int_ivec3 : fundef fn := Fun ["scalar"; "vec"] [Tint; Tcls Civec3] (RVal (Tcls Civec3)) [] (
  Return (Call ivec3__int_int_int <<Bin Orem (Var "scalar") (Read (LFld (LVar "vec") 0)); Bin Orem (Var "scalar") (Read (LFld (LVar "vec") 1)); Bin Orem
    (Var "scalar") (Read (LFld (LVar "vec") 2))>>)).
(** src/ivec3.cpp 59 *)
Definition c_op_or_ivec3_ivec3 : fundef fn := Fun ["first"; "second"] [Tcls Civec3; Tcls Civec3] (RVal (Tcls Civec3)) [] (
  Return (Call ivec3__int_int_int <<Bin Oor (Read (LFld (LVar "first") 0)) (Read (LFld (LVar "second") 0)); Bin Oor (Read (LFld (LVar "first") 1)) (Read
    (LFld (LVar "second") 1)); Bin Oor (Read (LFld (LVar "first") 2)) (Read (LFld (LVar "second") 2))>>)).
(** src/ivec3.cpp 59 *)
Definition c_op_or_ivec3_int : fundef fn := Fun ["vec"; "scalar"] [Tcls Civec3; Tint] (RVal (Tcls Civec3)) [] (
  Return (Call ivec3__int_int_int <<Bin Oor (Read (LFld (LVar "vec") 0)) (Var "scalar"); Bin Oor (Read (LFld (LVar "vec") 1)) (Var "scalar"); Bin Oor
    (Read (LFld (LVar "vec") 2)) (Var "scalar")>>)).
(** src/ivec3.cpp 59 *)
Definition c_op_or_int_ivec3 : fundef fn := Fun ["scalar"; "vec"] [Tint; Tcls Civec3] (RVal (Tcls Civec3)) [] (
  Return (Call ivec3__int_int_int <<Bin Oor (Var "scalar") (Read (LFld (LVar "vec") 0)); Bin Oor (Var "scalar") (Read (LFld (LVar "vec") 1)); Bin Oor
    (Var "scalar") (Read (LFld (LVar "vec") 2))>>)).
(** src/ivec3.cpp 60 *)
Definition c_op_and_ivec3_ivec3 : fundef fn := Fun ["first"; "second"] [Tcls Civec3; Tcls Civec3] (RVal (Tcls Civec3)) [] (
  Return (Call ivec3__int_int_int <<Bin Oand (Read (LFld (LVar "first") 0)) (Read (LFld (LVar "second") 0)); Bin Oand (Read (LFld (LVar "first") 1))
    (Read (LFld (LVar "second") 1)); Bin Oand (Read (LFld (LVar "first") 2)) (Read (LFld (LVar "second") 2))>>)).
(** src/ivec3.cpp 60 *)
Definition c_op_and_ivec3_int : fundef fn := Fun ["vec"; "scalar"] [Tcls Civec3; Tint] (RVal (Tcls Civec3)) [] (
  Return (Call ivec3__int_int_int <<Bin Oand (Read (LFld (LVar "vec") 0)) (Var "scalar"); Bin Oand (Read (LFld (LVar "vec") 1)) (Var "scalar"); Bin Oand
    (Read (LFld (LVar "vec") 2)) (Var "scalar")>>)).
(** src/ivec3.cpp 60 *)
Definition c_op_and_int_ivec3 : fundef fn := Fun ["scalar"; "vec"] [Tint; Tcls Civec3] (RVal (Tcls Civec3)) [] (
  Return (Call ivec3__int_int_int <<Bin Oand (Var "scalar") (Read (LFld (LVar "vec") 0)); Bin Oand (Var "scalar") (Read (LFld (LVar "vec") 1)); Bin Oand
    (Var "scalar") (Read (LFld (LVar "vec") 2))>>)).
(** src/ivec3.cpp 61 *)
Definition c_op_xor_ivec3_ivec3 : fundef fn := Fun ["first"; "second"] [Tcls Civec3; Tcls Civec3] (RVal (Tcls Civec3)) [] (
  Return (Call ivec3__int_int_int <<Bin Oxor (Read (LFld (LVar "first") 0)) (Read (LFld (LVar "second") 0)); Bin Oxor (Read (LFld (LVar "first") 1))
    (Read (LFld (LVar "second") 1)); Bin Oxor (Read (LFld (LVar "first") 2)) (Read (LFld (LVar "second") 2))>>)).
(** src/ivec3.cpp 61 *)
Definition c_op_xor_ivec3_int : fundef fn := Fun ["vec"; "scalar"] [Tcls Civec3; Tint] (RVal (Tcls Civec3)) [] (
  Return (Call ivec3__int_int_int <<Bin Oxor (Read (LFld (LVar "vec") 0)) (Var "scalar"); Bin Oxor (Read (LFld (LVar "vec") 1)) (Var "scalar"); Bin Oxor
    (Read (LFld (LVar "vec") 2)) (Var "scalar")>>)).
(** src/ivec3.cpp 61 *)
Definition c_op_xor_int_ivec3 : fundef fn := Fun ["scalar"; "vec"] [Tint; Tcls Civec3] (RVal (Tcls Civec3)) [] (
  Return (Call ivec3__int_int_int <<Bin Oxor (Var "scalar") (Read (LFld (LVar "vec") 0)); Bin Oxor (Var "scalar") (Read (LFld (LVar "vec") 1)); Bin Oxor
    (Var "scalar") (Read (LFld (LVar "vec") 2))>>)).
(** src/ivec3.cpp 62 *)
Definition c_op_shr_ivec3_ivec3 : fundef fn := Fun ["first"; "second"] [Tcls Civec3; Tcls Civec3] (RVal (Tcls Civec3)) [] (
  Return (Call ivec3__int_int_int <<Bin Oshr (Read (LFld (LVar "first") 0)) (Read (LFld (LVar "second") 0)); Bin Oshr (Read (LFld (LVar "first") 1))
    (Read (LFld (LVar "second") 1)); Bin Oshr (Read (LFld (LVar "first") 2)) (Read (LFld (LVar "second") 2))>>)).
(** src/ivec3.cpp 62 *)
Definition c_op_shr_ivec3_int : fundef fn := Fun ["vec"; "scalar"] [Tcls Civec3; Tint] (RVal (Tcls Civec3)) [] (
  Return (Call ivec3__int_int_int <<Bin Oshr (Read (LFld (LVar "vec") 0)) (Var "scalar"); Bin Oshr (Read (LFld (LVar "vec") 1)) (Var "scalar"); Bin Oshr
    (Read (LFld (LVar "vec") 2)) (Var "scalar")>>)).
(** src/ivec3.cpp 62 *)
Definition c_op_shr_int_ivec3 : fundef fn := Fun ["scalar"; "vec"] [Tint; Tcls Civec3] (RVal (Tcls Civec3)) [] (
  Return (Call ivec3__int_int_int <<Bin Oshr (Var "scalar") (Read (LFld (LVar "vec") 0)); Bin Oshr (Var "scalar") (Read (LFld (LVar "vec") 1)); Bin Oshr
    (Var "scalar") (Read (LFld (LVar "vec") 2))>>)).
(** src/ivec3.cpp 63 *)
Definition c_op_shl_ivec3_ivec3 : fundef fn := Fun ["first"; "second"] [Tcls Civec3; Tcls Civec3] (RVal (Tcls Civec3)) [] (
  Return (Call ivec3__int_int_int <<Bin Oshl (Read (LFld (LVar "first") 0)) (Read (LFld (LVar "second") 0)); Bin Oshl (Read (LFld (LVar "first") 1))
    (Read (LFld (LVar "second") 1)); Bin Oshl (Read (LFld (LVar "first") 2)) (Read (LFld (LVar "second") 2))>>)).
(** src/ivec3.cpp 63 *)
Definition c_op_shl_ivec3_int : fundef fn := Fun ["vec"; "scalar"] [Tcls Civec3; Tint] (RVal (Tcls Civec3)) [] (
  Return (Call ivec3__int_int_int <<Bin Oshl (Read (LFld (LVar "vec") 0)) (Var "scalar"); Bin Oshl (Read (LFld (LVar "vec") 1)) (Var "scalar"); Bin Oshl
    (Read (LFld (LVar "vec") 2)) (Var "scalar")>>)).
(** src/ivec3.cpp 63 *)
Definition c_op_shl_int_ivec3 : fundef fn := Fun ["scalar"; "vec"] [Tint; Tcls Civec3] (RVal (Tcls Civec3)) [] (
  Return (Call ivec3__int_int_int <<Bin Oshl (Var "scalar") (Read (LFld (LVar "vec") 0)); Bin Oshl (Var "scalar") (Read (LFld (LVar "vec") 1)); Bin Oshl
    (Var "scalar") (Read (LFld (LVar "vec") 2))>>)).
(** src/ivec3.cpp 66 *)
Definition c_ivec3__op_add_assign_ivec3 : fundef fn := Fun ["this"; "other"] [Tcls Civec3; Tcls Civec3] RVoid ["this"] (
  Assign (LFld (LVar "this") 0) (Bin Oadd (Read (LFld (LVar "this") 0)) (Read (LFld (LVar "other") 0)));;
  Assign (LFld (LVar "this") 1) (Bin Oadd (Read (LFld (LVar "this") 1)) (Read (LFld (LVar "other") 1)));;
  Assign (LFld (LVar "this") 2) (Bin Oadd (Read (LFld (LVar "this") 2)) (Read (LFld (LVar "other") 2)))).
(** src/ivec3.cpp 66 *)
Definition c_ivec3__op_add_assign_int : fundef fn := Fun ["this"; "scalar"] [Tcls Civec3; Tint] RVoid ["this"] (
  Assign (LFld (LVar "this") 0) (Bin Oadd (Read (LFld (LVar "this") 0)) (Var "scalar"));;
  Assign (LFld (LVar "this") 1) (Bin Oadd (Read (LFld (LVar "this") 1)) (Var "scalar"));;
  Assign (LFld (LVar "this") 2) (Bin Oadd (Read (LFld (LVar "this") 2)) (Var "scalar"))).
(** src/ivec3.cpp 67 *)
Definition c_ivec3__op_sub_assign_ivec3 : fundef fn := Fun ["this"; "other"] [Tcls Civec3; Tcls Civec3] RVoid ["this"] (
  Assign (LFld (LVar "this") 0) (Bin Osub (Read (LFld (LVar "this") 0)) (Read (LFld (LVar "other") 0)));;
  Assign (LFld (LVar "this") 1) (Bin Osub (Read (LFld (LVar "this") 1)) (Read (LFld (LVar "other") 1)));;
  Assign (LFld (LVar "this") 2) (Bin Osub (Read (LFld (LVar "this") 2)) (Read (LFld (LVar "other") 2)))).
(** src/ivec3.cpp 67 *)
Definition c_ivec3__op_sub_assign_int : fundef fn := Fun ["this"; "scalar"] [Tcls Civec3; Tint] RVoid ["this"] (
  Assign (LFld (LVar "this") 0) (Bin Osub (Read (LFld (LVar "this") 0)) (Var "scalar"));;
  Assign (LFld (LVar "this") 1) (Bin Osub (Read (LFld (LVar "this") 1)) (Var "scalar"));;
  Assign (LFld (LVar "this") 2) (Bin Osub (Read (LFld (LVar "this") 2)) (Var "scalar"))).
(** src/ivec3.cpp 68 *)
Definition c_ivec3__op_mul_assign_ivec3 : fundef fn := Fun ["this"; "other"] [Tcls Civec3; Tcls Civec3] RVoid ["this"] (
  Assign (LFld (LVar "this") 0) (Bin Omul (Read (LFld (LVar "this") 0)) (Read (LFld (LVar "other") 0)));;
  Assign (LFld (LVar "this") 1) (Bin Omul (Read (LFld (LVar "this") 1)) (Read (LFld (LVar "other") 1)));;
  Assign (LFld (LVar "this") 2) (Bin Omul (Read (LFld (LVar "this") 2)) (Read (LFld (LVar "other") 2)))).
(** src/ivec3.cpp 68 *)
Definition c_ivec3__op_mul_assign_int : fundef fn := Fun ["this"; "scalar"] [Tcls Civec3; Tint] RVoid ["this"] (
  Assign (LFld (LVar "this") 0) (Bin Omul (Read (LFld (LVar "this") 0)) (Var "scalar"));;
  Assign (LFld (LVar "this") 1) (Bin Omul (Read (LFld (LVar "this") 1)) (Var "scalar"));;
  Assign (LFld (LVar "this") 2) (Bin Omul (Read (LFld (LVar "this") 2)) (Var "scalar"))).
(** src/ivec3.cpp 69 *)
Definition c_ivec3__op_div_assign_ivec3 : fundef fn := Fun ["this"; "other"] [Tcls Civec3; Tcls Civec3] RVoid ["this"] (
  Assign (LFld (LVar "this") 0) (Bin Odiv (Read (LFld (LVar "this") 0)) (Read (LFld (LVar "other") 0)));;
  Assign (LFld (LVar "this") 1) (Bin Odiv (Read (LFld (LVar "this") 1)) (Read (LFld (LVar "other") 1)));;
  Assign (LFld (LVar "this") 2) (Bin Odiv (Read (LFld (LVar "this") 2)) (Read (LFld (LVar "other") 2)))).
(** src/ivec3.cpp 69 *)
Definition c_ivec3__op_div_assign_int : fundef fn := Fun ["this"; "scalar"] [Tcls Civec3; Tint] RVoid ["this"] (
  Assign (LFld (LVar "this") 0) (Bin Odiv (Read (LFld (LVar "this") 0)) (Var "scalar"));;
  Assign (LFld (LVar "this") 1) (Bin Odiv (Read (LFld (LVar "this") 1)) (Var "scalar"));;
  Assign (LFld (LVar "this") 2) (Bin Odiv (Read (LFld (LVar "this") 2)) (Var "scalar"))).
(** src/ivec3.cpp 70 *)
Definition c_ivec3__op_rem_assign_ivec3 : fundef fn := Fun ["this"; "other"] [Tcls Civec3; Tcls Civec3] RVoid ["this"] (
  Assign (LFld (LVar "this") 0) (Bin Orem (Read (LFld (LVar "this") 0)) (Read (LFld (LVar "other") 0)));;
  Assign (LFld (LVar "this") 1) (Bin Orem (Read (LFld (LVar "this") 1)) (Read (LFld (LVar "other") 1)));;
  Assign (LFld (LVar "this") 2) (Bin Orem (Read (LFld (LVar "this") 2)) (Read (LFld (LVar "other") 2)))).
(** src/ivec3.cpp 70 *)
Definition c_ivec3__op_rem_assign_int : fundef fn := Fun ["this"; "scalar"] [Tcls Civec3; Tint] RVoid ["this"] (
  Assign (LFld (LVar "this") 0) (Bin Orem (Read (LFld (LVar "this") 0)) (Var "scalar"));;
  Assign (LFld (LVar "this") 1) (Bin Orem (Read (LFld (LVar "this") 1)) (Var "scalar"));;
  Assign (LFld (LVar "this") 2) (Bin Orem (Read (LFld (LVar "this") 2)) (Var "scalar"))).
(** src/ivec3.cpp 71 *)
Definition c_ivec3__op_or_assign_ivec3 : fundef fn := Fun ["this"; "other"] [Tcls Civec3; Tcls Civec3] RVoid ["this"] (
  Assign (LFld (LVar "this") 0) (Bin Oor (Read (LFld (LVar "this") 0)) (Read (LFld (LVar "other") 0)));;
  Assign (LFld (LVar "this") 1) (Bin Oor (Read (LFld (LVar "this") 1)) (Read (LFld (LVar "other") 1)));;
  Assign (LFld (LVar "this") 2) (Bin Oor (Read (LFld (LVar "this") 2)) (Read (LFld (LVar "other") 2)))).
(** src/ivec3.cpp 71 *)
Definition c_ivec3__op_or_assign_int : fundef fn := Fun ["this"; "scalar"] [Tcls Civec3; Tint] RVoid ["this"] (
  Assign (LFld (LVar "this") 0) (Bin Oor (Read (LFld (LVar "this") 0)) (Var "scalar"));;
  Assign (LFld (LVar "this") 1) (Bin Oor (Read (LFld (LVar "this") 1)) (Var "scalar"));;
  Assign (LFld (LVar "this") 2) (Bin Oor (Read (LFld (LVar "this") 2)) (Var "scalar"))).
(** src/ivec3.cpp 72 *)
Definition c_ivec3__op_and_assign_ivec3 : fundef fn := Fun ["this"; "other"] [Tcls Civec3; Tcls Civec3] RVoid ["this"] (
  Assign (LFld (LVar "this") 0) (Bin Oand (Read (LFld (LVar "this") 0)) (Read (LFld (LVar "other") 0)));;
  Assign (LFld (LVar "this") 1) (Bin Oand (Read (LFld (LVar "this") 1)) (Read (LFld (LVar "other") 1)));;
  Assign (LFld (LVar "this") 2) (Bin Oand (Read (LFld (LVar "this") 2)) (Read (LFld (LVar "other") 2)))).
(** src/ivec3.cpp 72 *)
Definition c_ivec3__op_and_assign_int : fundef fn := Fun ["this"; "scalar"] [Tcls Civec3; Tint] RVoid ["this"] (
  Assign (LFld (LVar "this") 0) (Bin Oand (Read (LFld (LVar "this") 0)) (Var "scalar"));;
  Assign (LFld (LVar "this") 1) (Bin Oand (Read (LFld (LVar "this") 1)) (Var "scalar"));;
  Assign (LFld (LVar "this") 2) (Bin Oand (Read (LFld (LVar "this") 2)) (Var "scalar"))).
(** src/ivec3.cpp 73 *)
Definition c_ivec3__op_xor_assign_ivec3 : fundef fn := Fun ["this"; "other"] [Tcls Civec3; Tcls Civec3] RVoid ["this"] (
  Assign (LFld (LVar "this") 0) (Bin Oxor (Read (LFld (LVar "this") 0)) (Read (LFld (LVar "other") 0)));;
  Assign (LFld (LVar "this") 1) (Bin Oxor (Read (LFld (LVar "this") 1)) (Read (LFld (LVar "other") 1)));;
  Assign (LFld (LVar "this") 2) (Bin Oxor (Read (LFld (LVar "this") 2)) (Read (LFld (LVar "other") 2)))).
(** src/ivec3.cpp 73 *)
Definition c_ivec3__op_xor_assign_int : fundef fn := Fun ["this"; "scalar"] [Tcls Civec3; Tint] RVoid ["this"] (
  Assign (LFld (LVar "this") 0) (Bin Oxor (Read (LFld (LVar "this") 0)) (Var "scalar"));;
  Assign (LFld (LVar "this") 1) (Bin Oxor (Read (LFld (LVar "this") 1)) (Var "scalar"));;
  Assign (LFld (LVar "this") 2) (Bin Oxor (Read (LFld (LVar "this") 2)) (Var "scalar"))).
(** src/ivec3.cpp 74 *)
Definition c_ivec3__op_shr_assign_ivec3 : fundef fn := Fun ["this"; "other"] [Tcls Civec3; Tcls Civec3] RVoid ["this"] (
  Assign (LFld (LVar "this") 0) (Bin Oshr (Read (LFld (LVar "this") 0)) (Read (LFld (LVar "other") 0)));;
  Assign (LFld (LVar "this") 1) (Bin Oshr (Read (LFld (LVar "this") 1)) (Read (LFld (LVar "other") 1)));;
  Assign (LFld (LVar "this") 2) (Bin Oshr (Read (LFld (LVar "this") 2)) (Read (LFld (LVar "other") 2)))).
(** src/ivec3.cpp 74 *)
Definition c_ivec3__op_shr_assign_int : fundef fn := Fun ["this"; "scalar"] [Tcls Civec3; Tint] RVoid ["this"] (
  Assign (LFld (LVar "this") 0) (Bin Oshr (Read (LFld (LVar "this") 0)) (Var "scalar"));;
  Assign (LFld (LVar "this") 1) (Bin Oshr (Read (LFld (LVar "this") 1)) (Var "scalar"));;
  Assign (LFld (LVar "this") 2) (Bin Oshr (Read (LFld (LVar "this") 2)) (Var "scalar"))).
(** src/ivec3.cpp 75 *)
Definition c_ivec3__op_shl_assign_ivec3 : fundef fn := Fun ["this"; "other"] [Tcls Civec3; Tcls Civec3] RVoid ["this"] (
  Assign (LFld (LVar "this") 0) (Bin Oshl (Read (LFld (LVar "this") 0)) (Read (LFld (LVar "other") 0)));;
  Assign (LFld (LVar "this") 1) (Bin Oshl (Read (LFld (LVar "this") 1)) (Read (LFld (LVar "other") 1)));;
  Assign (LFld (LVar "this") 2) (Bin Oshl (Read (LFld (LVar "this") 2)) (Read (LFld (LVar "other") 2)))).
(** src/ivec3.cpp 75 *)
Definition c_ivec3__op_shl_assign_int : fundef fn := Fun ["this"; "scalar"] [Tcls Civec3; Tint] RVoid ["this"] (
  Assign (LFld (LVar "this") 0) (Bin Oshl (Read (LFld (LVar "this") 0)) (Var "scalar"));;
  Assign (LFld (LVar "this") 1) (Bin Oshl (Read (LFld (LVar "this") 1)) (Var "scalar"));;
  Assign (LFld (LVar "this") 2) (Bin Oshl (Read (LFld (LVar "this") 2)) (Var "scalar"))).
(** src/ivec3.cpp 78-83 *)
Definition c_op_sub_ivec3 : fundef fn := Fun ["first"] [Tcls Civec3] (RVal (Tcls Civec3)) [] (
  Return (Call ivec3__int_int_int <<Un Oneg (Read (LFld (LVar "first") 0)); Un Oneg (Read (LFld (LVar "first") 1)); Un Oneg (Read (LFld (LVar "first")
    2))>>)).
(** src/ivec3.cpp 85-90 *)
Definition c_op_add_ivec3 : fundef fn := Fun ["first"] [Tcls Civec3] (RVal (Tcls Civec3)) [] (
  Return (Call ivec3__int_int_int <<Un Oplus (Read (LFld (LVar "first") 0)); Un Oplus (Read (LFld (LVar "first") 1)); Un Oplus (Read (LFld (LVar
    "first") 2))>>)).
(** src/ivec3.cpp 92-95 *)
Definition c_op_eq_ivec3_ivec3 : fundef fn := Fun ["first"; "second"] [Tcls Civec3; Tcls Civec3] (RVal Tbool) [] (
  Return (And (And (Bin Oeq (Read (LFld (LVar "first") 0)) (Read (LFld (LVar "second") 0))) (Bin Oeq (Read (LFld (LVar "first") 1)) (Read (LFld (LVar
    "second") 1)))) (Bin Oeq (Read (LFld (LVar "first") 2)) (Read (LFld (LVar "second") 2))))).
(** src/ivec3.cpp 97-100 *)
Definition c_op_ne_ivec3_ivec3 : fundef fn := Fun ["first"; "second"] [Tcls Civec3; Tcls Civec3] (RVal Tbool) [] (
  Return (Un Onot (Call op_eq_ivec3_ivec3 <<Var "first"; Var "second">>))).
(** src/ivec3.cpp 103-107 *)
Definition c_ivec3__index : fundef fn := Fun ["this"; "val"] [Tcls Civec3; Tuint] (RRef Tint) [] (
  Assert (Bin Olt (Var "val") (UInt 3));;
  ReturnRef (LSub (LVar "this") (Var "val"))).
(** src/ivec3.cpp 109-113 *)
Definition c_ivec3__index_const : fundef fn := Fun ["this"; "val"] [Tcls Civec3; Tuint] (RVal Tint) [] (
  Assert (Bin Olt (Var "val") (UInt 3));;
  Return (Read (LSub (LVar "this") (Var "val")))).
(** src/ivec3.cpp 115-122 *)
Definition c_ivec3__preinc : fundef fn := Fun ["this"] [Tcls Civec3] (RRef (Tcls Civec3)) ["this"] (
  Assign (LFld (LVar "this") 0) (Bin Oadd (Read (LFld (LVar "this") 0)) (Int 1));;
  Assign (LFld (LVar "this") 1) (Bin Oadd (Read (LFld (LVar "this") 1)) (Int 1));;
  Assign (LFld (LVar "this") 2) (Bin Oadd (Read (LFld (LVar "this") 2)) (Int 1));;
  ReturnRef (LVar "this")).
(** src/ivec3.cpp 124-131 *)
Definition c_ivec3__postinc : fundef fn := Fun ["this"] [Tcls Civec3] (RVal (Tcls Civec3)) ["this"] (
  Decl "tmp" (Some (Var "this"));;
  Assign (LFld (LVar "this") 0) (Bin Oadd (Read (LFld (LVar "this") 0)) (Int 1));;
  Assign (LFld (LVar "this") 1) (Bin Oadd (Read (LFld (LVar "this") 1)) (Int 1));;
  Assign (LFld (LVar "this") 2) (Bin Oadd (Read (LFld (LVar "this") 2)) (Int 1));;
  Return (Var "tmp")).
(** src/ivec3.cpp 133-139 *)
Definition c_ivec3__predec : fundef fn := Fun ["this"] [Tcls Civec3] (RRef (Tcls Civec3)) ["this"] (
  Assign (LFld (LVar "this") 0) (Bin Osub (Read (LFld (LVar "this") 0)) (Int 1));;
  Assign (LFld (LVar "this") 1) (Bin Osub (Read (LFld (LVar "this") 1)) (Int 1));;
  Assign (LFld (LVar "this") 2) (Bin Osub (Read (LFld (LVar "this") 2)) (Int 1));;
  ReturnRef (LVar "this")).
(** src/ivec3.cpp 143-150 *)
Definition c_ivec3__postdec : fundef fn := Fun ["this"] [Tcls Civec3] (RVal (Tcls Civec3)) ["this"] (
  Decl "tmp" (Some (Var "this"));;
  Assign (LFld (LVar "this") 0) (Bin Osub (Read (LFld (LVar "this") 0)) (Int 1));;
  Assign (LFld (LVar "this") 1) (Bin Osub (Read (LFld (LVar "this") 1)) (Int 1));;
  Assign (LFld (LVar "this") 2) (Bin Osub (Read (LFld (LVar "this") 2)) (Int 1));;
  Return (Var "tmp")).
(** src/ivec3.cpp 152-155 *)
Definition c_ivec3__to_bvec3 : fundef fn := Fun ["this"] [Tcls Civec3] (RVal (Tcls Cbvec3)) [] (
  Return (Call bvec3__bool_bool_bool <<Conv Tbool (Read (LFld (LVar "this") 0)); Conv Tbool (Read (LFld (LVar "this") 1)); Conv Tbool (Read (LFld (LVar
    "this") 2))>>)).
(** src/ivec3.cpp 158-166 *)
Definition c_op_lt_ivec3_ivec3 : fundef fn := Fun ["first"; "second"] [Tcls Civec3; Tcls Civec3] (RVal Tbool) [] (
  If (Bin Olt (Read (LFld (LVar "first") 0)) (Read (LFld (LVar "second") 0))) (Return (Bool true)) Skip;;
  If (Bin Ogt (Read (LFld (LVar "first") 0)) (Read (LFld (LVar "second") 0))) (Return (Bool false)) Skip;;
  If (Bin Olt (Read (LFld (LVar "first") 1)) (Read (LFld (LVar "second") 1))) (Return (Bool true)) Skip;;
  If (Bin Ogt (Read (LFld (LVar "first") 1)) (Read (LFld (LVar "second") 1))) (Return (Bool false)) Skip;;
  If (Bin Olt (Read (LFld (LVar "first") 2)) (Read (LFld (LVar "second") 2))) (Return (Bool true)) Skip;;
  Return (Bool false)).
(** src/ivec3.cpp 168-171 *)
Definition c_op_le_ivec3_ivec3 : fundef fn := Fun ["first"; "second"] [Tcls Civec3; Tcls Civec3] (RVal Tbool) [] (
  Return (Un Onot (Call op_lt_ivec3_ivec3 <<Var "second"; Var "first">>))).
(** src/ivec3.cpp 173-176 *)
Definition c_op_gt_ivec3_ivec3 : fundef fn := Fun ["first"; "second"] [Tcls Civec3; Tcls Civec3] (RVal Tbool) [] (
  Return (Call op_lt_ivec3_ivec3 <<Var "second"; Var "first">>)).
(** src/ivec3.cpp 178-181 *)
Definition c_op_ge_ivec3_ivec3 : fundef fn := Fun ["first"; "second"] [Tcls Civec3; Tcls Civec3] (RVal Tbool) [] (
  Return (Un Onot (Call op_lt_ivec3_ivec3 <<Var "first"; Var "second">>))).

(** ** src/ivec4.cpp *)
(** src/ivec4.cpp 12-14 *)
Definition c_ivec4__default : fundef fn := Fun [] [] (RVal (Tcls Civec4)) [] (
  Decl "this" (Some (Call ivec4__int <<Int 0>>));;
  Made).
(** src/ivec4.cpp 16-17 *)
Definition c_ivec4__no_init_t : fundef fn := Fun [] [] (RVal (Tcls Civec4)) [] (
  Decl "this" (Some (New Civec4 ENil));;
  Made).
(** src/ivec4.cpp 19-25 *)
Definition c_ivec4__int : fundef fn := Fun ["value"] [Tint] (RVal (Tcls Civec4)) [] (
  Decl "this" (Some (New Civec4 ENil));;
  Assign (LFld (LVar "this") 0) (Var "value");;
  Assign (LFld (LVar "this") 1) (Var "value");;
  Assign (LFld (LVar "this") 2) (Var "value");;
  Assign (LFld (LVar "this") 3) (Var "value");;
  Made).
(** src/ivec4.cpp 26-32 *)
Definition c_ivec4__int_int_int_int : fundef fn := Fun ["_x"; "_y"; "_z"; "_w"] [Tint; Tint; Tint; Tint] (RVal (Tcls Civec4)) [] (
  Decl "this" (Some (New Civec4 ENil));;
  Assign (LFld (LVar "this") 0) (Var "_x");;
  Assign (LFld (LVar "this") 1) (Var "_y");;
  Assign (LFld (LVar "this") 2) (Var "_z");;
  Assign (LFld (LVar "this") 3) (Var "_w");;
  Made).
(** src/ivec4.cpp 34-40 *)
Definition c_ivec4__ivec3_int : fundef fn := Fun ["xyz"; "_w"] [Tcls Civec3; Tint] (RVal (Tcls Civec4)) [] (
  Decl "this" (Some (New Civec4 ENil));;
  Assign (LFld (LVar "this") 0) (Read (LFld (LVar "xyz") 0));;
  Assign (LFld (LVar "this") 1) (Read (LFld (LVar "xyz") 1));;
  Assign (LFld (LVar "this") 2) (Read (LFld (LVar "xyz") 2));;
  Assign (LFld (LVar "this") 3) (Var "_w");;
  Made).
(** src/ivec4.cpp 42-48 *)
Definition c_ivec4__int_ivec3 : fundef fn := Fun ["_x"; "yzw"] [Tint; Tcls Civec3] (RVal (Tcls Civec4)) [] (
  Decl "this" (Some (New Civec4 ENil));;
  Assign (LFld (LVar "this") 0) (Var "_x");;
  Assign (LFld (LVar "this") 1) (Read (LFld (LVar "yzw") 0));;
  Assign (LFld (LVar "this") 2) (Read (LFld (LVar "yzw") 1));;
  Assign (LFld (LVar "this") 3) (Read (LFld (LVar "yzw") 2));;
  Made).
(** src/ivec4.cpp 50-56 *)
Definition c_ivec4__ivec2_ivec2 : fundef fn := Fun ["xy"; "zw"] [Tcls Civec2; Tcls Civec2] (RVal (Tcls Civec4)) [] (
  Decl "this" (Some (New Civec4 ENil));;
  Assign (LFld (LVar "this") 0) (Read (LFld (LVar "xy") 0));;
  Assign (LFld (LVar "this") 1) (Read (LFld (LVar "xy") 1));;
  Assign (LFld (LVar "this") 2) (Read (LFld (LVar "zw") 0));;
  Assign (LFld (LVar "this") 3) (Read (LFld (LVar "zw") 1));;
  Made).
(** src/ivec4.cpp 58-64 *)
Definition c_ivec4__ivec2_int_int : fundef fn := Fun ["xy"; "_z"; "_w"] [Tcls Civec2; Tint; Tint] (RVal (Tcls Civec4)) [] (
  Decl "this" (Some (New Civec4 ENil));;
  Assign (LFld (LVar "this") 0) (Read (LFld (LVar "xy") 0));;
  Assign (LFld (LVar "this") 1) (Read (LFld (LVar "xy") 1));;
  Assign (LFld (LVar "this") 2) (Var "_z");;
  Assign (LFld (LVar "this") 3) (Var "_w");;
  Made).
(** src/ivec4.cpp 66-72 *)
Definition c_ivec4__int_ivec2_int : fundef fn := Fun ["_x"; "yz"; "_w"] [Tint; Tcls Civec2; Tint] (RVal (Tcls Civec4)) [] (
  Decl "this" (Some (New Civec4 ENil));;
  Assign (LFld (LVar "this") 0) (Var "_x");;
  Assign (LFld (LVar "this") 1) (Read (LFld (LVar "yz") 0));;
  Assign (LFld (LVar "this") 2) (Read (LFld (LVar "yz") 1));;
  Assign (LFld (LVar "this") 3) (Var "_w");;
  Made).
(** src/ivec4.cpp 74-80 *)
Definition c_ivec4__int_int_ivec2 : fundef fn := Fun ["_x"; "_y"; "zw"] [Tint; Tint; Tcls Civec2] (RVal (Tcls Civec4)) [] (
  Decl "this" (Some (New Civec4 ENil));;
  Assign (LFld (LVar "this") 0) (Var "_x");;
  Assign (LFld (LVar "this") 1) (Var "_y");;
  Assign (LFld (LVar "this") 2) (Read (LFld (LVar "zw") 0));;
  Assign (LFld (LVar "this") 3) (Read (LFld (LVar "zw") 1));;
  Made).
(** src/ivec4.cpp 82-86 *)
Definition c_make_ivec4_int_ptr : fundef fn := Fun ["ptr"] [Tptr Tint] (RVal (Tcls Civec4)) [] (
  Assert (Conv Tbool (Var "ptr"));;
  Return (Call ivec4__int_int_int_int <<Deref (Var "ptr") 0; Deref (Var "ptr") 1; Deref (Var "ptr") 2; Deref (Var "ptr") 3>>)).
(** src/ivec4.cpp 89 *)
Definition c_op_add_ivec4_ivec4 : fundef fn := Fun ["first"; "second"] [Tcls Civec4; Tcls Civec4] (RVal (Tcls Civec4)) [] (
  Return (Call ivec4__int_int_int_int <<Bin Oadd (Read (LFld (LVar "first") 0)) (Read (LFld (LVar "second") 0)); Bin Oadd (Read (LFld (LVar "first") 1))
    (Read (LFld (LVar "second") 1)); Bin Oadd (Read (LFld (LVar "first") 2)) (Read (LFld (LVar "second") 2)); Bin Oadd (Read (LFld (LVar "first") 3))
    (Read (LFld (LVar "second") 3))>>)).
(** src/ivec4.cpp 89 *)
Definition c_op_add_ivec4_int : fundef fn := Fun ["vec"; "scalar"] [Tcls Civec4; Tint] (RVal (Tcls Civec4)) [] (
  Return (Call ivec4__int_int_int_int <<Bin Oadd (Read (LFld (LVar "vec") 0)) (Var "scalar"); Bin Oadd (Read (LFld (LVar "vec") 1)) (Var "scalar"); Bin
    Oadd (Read (LFld (LVar "vec") 2)) (Var "scalar"); Bin Oadd (Read (LFld (LVar "vec") 3)) (Var "scalar")>>)).
(** src/ivec4.cpp 89 *)
Definition c_op_add_int_ivec4 : fundef fn := Fun ["scalar"; "vec"] [Tint; Tcls Civec4] (RVal (Tcls Civec4)) [] (
  Return (Call ivec4__int_int_int_int <<Bin Oadd (Var "scalar") (Read (LFld (LVar "vec") 0)); Bin Oadd (Var "scalar") (Read (LFld (LVar "vec") 1)); Bin
    Oadd (Var "scalar") (Read (LFld (LVar "vec") 2)); Bin Oadd (Var "scalar") (Read (LFld (LVar "vec") 3))>>)).
(** src/ivec4.cpp 90 *)
Definition c_op_sub_ivec4_ivec4 : fundef fn := Fun ["first"; "second"] [Tcls Civec4; Tcls Civec4] (RVal (Tcls Civec4)) [] (
  Return (Call ivec4__int_int_int_int <<Bin Osub (Read (LFld (LVar "first") 0)) (Read (LFld (LVar "second") 0)); Bin Osub (Read (LFld (LVar "first") 1))
    (Read (LFld (LVar "second") 1)); Bin Osub (Read (LFld (LVar "first") 2)) (Read (LFld (LVar "second") 2)); Bin Osub (Read (LFld (LVar "first") 3))
    (Read (LFld (LVar "second") 3))>>)).
(** src/ivec4.cpp 90 *)
Definition c_op_sub_ivec4_int : fundef fn := Fun ["vec"; "scalar"] [Tcls Civec4; Tint] (RVal (Tcls Civec4)) [] (
  Return (Call ivec4__int_int_int_int <<Bin Osub (Read (LFld (LVar "vec") 0)) (Var "scalar"); Bin Osub (Read (LFld (LVar "vec") 1)) (Var "scalar"); Bin
    Osub (Read (LFld (LVar "vec") 2)) (Var "scalar"); Bin Osub (Read (LFld (LVar "vec") 3)) (Var "scalar")>>)).
(** src/ivec4.cpp 90 *)
Definition c_op_sub_int_ivec4 : fundef fn := Fun ["scalar"; "vec"] [Tint; Tcls Civec4] (RVal (Tcls Civec4)) [] (
  Return (Call ivec4__int_int_int_int <<Bin Osub (Var "scalar") (Read (LFld (LVar "vec") 0)); Bin Osub (Var "scalar") (Read (LFld (LVar "vec") 1)); Bin
    Osub (Var "scalar") (Read (LFld (LVar "vec") 2)); Bin Osub (Var "scalar") (Read (LFld (LVar "vec") 3))>>)).
(** src/ivec4.cpp 91 *)
Definition c_op_mul_ivec4_ivec4 : fundef fn := Fun ["first"; "second"] [Tcls Civec4; Tcls Civec4] (RVal (Tcls Civec4)) [] (
  Return (Call ivec4__int_int_int_int <<Bin Omul (Read (LFld (LVar "first") 0)) (Read (LFld (LVar "second") 0)); Bin Omul (Read (LFld (LVar "first") 1))
    (Read (LFld (LVar "second") 1)); Bin Omul (Read (LFld (LVar "first") 2)) (Read (LFld (LVar "second") 2)); Bin Omul (Read (LFld (LVar "first") 3))
    (Read (LFld (LVar "second") 3))>>)).
(** src/ivec4.cpp 91 *)
Definition c_op_mul_ivec4_int : fundef fn := Fun ["vec"; "scalar"] [Tcls Civec4; Tint] (RVal (Tcls Civec4)) [] (
  Return (Call ivec4__int_int_int_int <<Bin Omul (Read (LFld (LVar "vec") 0)) (Var "scalar"); Bin Omul (Read (LFld (LVar "vec") 1)) (Var "scalar"); Bin
    Omul (Read (LFld (LVar "vec") 2)) (Var "scalar"); Bin Omul (Read (LFld (LVar "vec") 3)) (Var "scalar")>>)).
(** src/ivec4.cpp 91 *)
Definition c_op_mul_int_ivec4 : fundef fn := Fun ["scalar"; "vec"] [Tint; Tcls Civec4] (RVal (Tcls Civec4)) [] (
  Return (Call ivec4__int_int_int_int <<Bin Omul (Var "scalar") (Read (LFld (LVar "vec") 0)); Bin Omul (Var "scalar") (Read (LFld (LVar "vec") 1)); Bin
    Omul (Var "scalar") (Read (LFld (LVar "vec") 2)); Bin Omul (Var "scalar") (Read (LFld (LVar "vec") 3))>>)).
(** src/ivec4.cpp 92 *)
Definition c_op_div_ivec4_ivec4 : fundef fn := Fun ["first"; "second"] [Tcls Civec4; Tcls Civec4] (RVal (Tcls Civec4)) [] (
  Return (Call ivec4__int_int_int_int <<Bin Odiv (Read (LFld (LVar "first") 0)) (Read (LFld (LVar "second") 0)); Bin Odiv (Read (LFld (LVar "first") 1))
    (Read (LFld (LVar "second") 1)); Bin Odiv (Read (LFld (LVar "first") 2)) (Read (LFld (LVar "second") 2)); Bin Odiv (Read (LFld (LVar "first") 3))
    (Read (LFld (LVar "second") 3))>>)).
(** src/ivec4.cpp 92 *)
Definition c_op_div_ivec4_int : fundef fn := Fun ["vec"; "scalar"] [Tcls Civec4; Tint] (RVal (Tcls Civec4)) [] (
  Return (Call ivec4__int_int_int_int <<Bin Odiv (Read (LFld (LVar "vec") 0)) (Var "scalar"); Bin Odiv (Read (LFld (LVar "vec") 1)) (Var "scalar"); Bin
    Odiv (Read (LFld (LVar "vec") 2)) (Var "scalar"); Bin Odiv (Read (LFld (LVar "vec") 3)) (Var "scalar")>>)).
(** src/ivec4.cpp 92 *)
Definition c_op_div_int_ivec4 : fundef fn := Fun ["scalar"; "vec"] [Tint; Tcls Civec4] (RVal (Tcls Civec4)) [] (
  Return (Call ivec4__int_int_int_int <<Bin Odiv (Var "scalar") (Read (LFld (LVar "vec") 0)); Bin Odiv (Var "scalar") (Read (LFld (LVar "vec") 1)); Bin
    Odiv (Var "scalar") (Read (LFld (LVar "vec") 2)); Bin Odiv (Var "scalar") (Read (LFld (LVar "vec") 3))>>)).
(** src/ivec4.cpp 95 *)
Definition c_ivec4__op_add_assign_ivec4 : fundef fn := Fun ["this"; "other"] [Tcls Civec4; Tcls Civec4] RVoid ["this"] (
  Assign (LFld (LVar "this") 0) (Bin Oadd (Read (LFld (LVar "this") 0)) (Read (LFld (LVar "other") 0)));;
  Assign (LFld (LVar "this") 1) (Bin Oadd (Read (LFld (LVar "this") 1)) (Read (LFld (LVar "other") 1)));;
  Assign (LFld (LVar "this") 2) (Bin Oadd (Read (LFld (LVar "this") 2)) (Read (LFld (LVar "other") 2)));;
  Assign (LFld (LVar "this") 3) (Bin Oadd (Read (LFld (LVar "this") 3)) (Read (LFld (LVar "other") 3)))).
(** src/ivec4.cpp 95 *)
Definition c_ivec4__op_add_assign_int : fundef fn := Fun ["this"; "scalar"] [Tcls Civec4; Tint] RVoid ["this"] (
  Assign (LFld (LVar "this") 0) (Bin Oadd (Read (LFld (LVar "this") 0)) (Var "scalar"));;
  Assign (LFld (LVar "this") 1) (Bin Oadd (Read (LFld (LVar "this") 1)) (Var "scalar"));;
  Assign (LFld (LVar "this") 2) (Bin Oadd (Read (LFld (LVar "this") 2)) (Var "scalar"));;
  Assign (LFld (LVar "this") 3) (Bin Oadd (Read (LFld (LVar "this") 3)) (Var "scalar"))).
(** src/ivec4.cpp 96 *)
Definition c_ivec4__op_sub_assign_ivec4 : fundef fn := Fun ["this"; "other"] [Tcls Civec4; Tcls Civec4] RVoid ["this"] (
  Assign (LFld (LVar "this") 0) (Bin Osub (Read (LFld (LVar "this") 0)) (Read (LFld (LVar "other") 0)));;
  Assign (LFld (LVar "this") 1) (Bin Osub (Read (LFld (LVar "this") 1)) (Read (LFld (LVar "other") 1)));;
  Assign (LFld (LVar "this") 2) (Bin Osub (Read (LFld (LVar "this") 2)) (Read (LFld (LVar "other") 2)));;
  Assign (LFld (LVar "this") 3) (Bin Osub (Read (LFld (LVar "this") 3)) (Read (LFld (LVar "other") 3)))).
(** src/ivec4.cpp 96 *)
Definition c_ivec4__op_sub_assign_int : fundef fn := Fun ["this"; "scalar"] [Tcls Civec4; Tint] RVoid ["this"] (
  Assign (LFld (LVar "this") 0) (Bin Osub (Read (LFld (LVar "this") 0)) (Var "scalar"));;
  Assign (LFld (LVar "this") 1) (Bin Osub (Read (LFld (LVar "this") 1)) (Var "scalar"));;
  Assign (LFld (LVar "this") 2) (Bin Osub (Read (LFld (LVar "this") 2)) (Var "scalar"));;
  Assign (LFld (LVar "this") 3) (Bin Osub (Read (LFld (LVar "this") 3)) (Var "scalar"))).
(** src/ivec4.cpp 97 *)
Definition c_ivec4__op_mul_assign_ivec4 : fundef fn := Fun ["this"; "other"] [Tcls Civec4; Tcls Civec4] RVoid ["this"] (
  Assign (LFld (LVar "this") 0) (Bin Omul (Read (LFld (LVar "this") 0)) (Read (LFld (LVar "other") 0)));;
  Assign (LFld (LVar "this") 1) (Bin Omul (Read (LFld (LVar "this") 1)) (Read (LFld (LVar "other") 1)));;
  Assign (LFld (LVar "this") 2) (Bin Omul (Read (LFld (LVar "this") 2)) (Read (LFld (LVar "other") 2)));;
  Assign (LFld (LVar "this") 3) (Bin Omul (Read (LFld (LVar "this") 3)) (Read (LFld (LVar "other") 3)))).
(** src/ivec4.cpp 97 *)
Definition c_ivec4__op_mul_assign_int : fundef fn := Fun ["this"; "scalar"] [Tcls Civec4; Tint] RVoid ["this"] (
  Assign (LFld (LVar "this") 0) (Bin Omul (Read (LFld (LVar "this") 0)) (Var "scalar"));;
  Assign (LFld (LVar "this") 1) (Bin Omul (Read (LFld (LVar "this") 1)) (Var "scalar"));;
  Assign (LFld (LVar "this") 2) (Bin Omul (Read (LFld (LVar "this") 2)) (Var "scalar"));;
  Assign (LFld (LVar "this") 3) (Bin Omul (Read (LFld (LVar "this") 3)) (Var "scalar"))).
(** src/ivec4.cpp 98 *)
Definition c_ivec4__op_div_assign_ivec4 : fundef fn := Fun ["this"; "other"] [Tcls Civec4; Tcls Civec4] RVoid ["this"] (
  Assign (LFld (LVar "this") 0) (Bin Odiv (Read (LFld (LVar "this") 0)) (Read (LFld (LVar "other") 0)));;
  Assign (LFld (LVar "this") 1) (Bin Odiv (Read (LFld (LVar "this") 1)) (Read (LFld (LVar "other") 1)));;
  Assign (LFld (LVar "this") 2) (Bin Odiv (Read (LFld (LVar "this") 2)) (Read (LFld (LVar "other") 2)));;
  Assign (LFld (LVar "this") 3) (Bin Odiv (Read (LFld (LVar "this") 3)) (Read (LFld (LVar "other") 3)))).
(** src/ivec4.cpp 98 *)
Definition c_ivec4__op_div_assign_int : fundef fn := Fun ["this"; "scalar"] [Tcls Civec4; Tint] RVoid ["this"] (
  Assign (LFld (LVar "this") 0) (Bin Odiv (Read (LFld (LVar "this") 0)) (Var "scalar"));;
  Assign (LFld (LVar "this") 1) (Bin Odiv (Read (LFld (LVar "this") 1)) (Var "scalar"));;
  Assign (LFld (LVar "this") 2) (Bin Odiv (Read (LFld (LVar "this") 2)) (Var "scalar"));;
  Assign (LFld (LVar "this") 3) (Bin Odiv (Read (LFld (LVar "this") 3)) (Var "scalar"))).
(** src/ivec4.cpp 100-106 *)
Definition c_op_sub_ivec4 : fundef fn := Fun ["first"] [Tcls Civec4] (RVal (Tcls Civec4)) [] (
  Return (Call ivec4__int_int_int_int <<Un Oneg (Read (LFld (LVar "first") 0)); Un Oneg (Read (LFld (LVar "first") 1)); Un Oneg (Read (LFld (LVar
    "first") 2)); Un Oneg (Read (LFld (LVar "first") 3))>>)).
(** src/ivec4.cpp 109-115 *)
Definition c_op_add_ivec4 : fundef fn := Fun ["first"] [Tcls Civec4] (RVal (Tcls Civec4)) [] (
  Return (Call ivec4__int_int_int_int <<Un Oplus (Read (LFld (LVar "first") 0)); Un Oplus (Read (LFld (LVar "first") 1)); Un Oplus (Read (LFld (LVar
    "first") 2)); Un Oplus (Read (LFld (LVar "first") 3))>>)).
(** src/ivec4.cpp 117-124 *)
Definition c_ivec4__preinc : fundef fn := Fun ["this"] [Tcls Civec4] (RRef (Tcls Civec4)) ["this"] (
  Assign (LFld (LVar "this") 0) (Bin Oadd (Read (LFld (LVar "this") 0)) (Int 1));;
  Assign (LFld (LVar "this") 1) (Bin Oadd (Read (LFld (LVar "this") 1)) (Int 1));;
  Assign (LFld (LVar "this") 2) (Bin Oadd (Read (LFld (LVar "this") 2)) (Int 1));;
  Assign (LFld (LVar "this") 3) (Bin Oadd (Read (LFld (LVar "this") 3)) (Int 1));;
  ReturnRef (LVar "this")).
(** src/ivec4.cpp 126-134 *)
Definition c_ivec4__postinc : fundef fn := Fun ["this"] [Tcls Civec4] (RVal (Tcls Civec4)) ["this"] (
  Decl "tmp" (Some (Var "this"));;
  Assign (LFld (LVar "this") 0) (Bin Oadd (Read (LFld (LVar "this") 0)) (Int 1));;
  Assign (LFld (LVar "this") 1) (Bin Oadd (Read (LFld (LVar "this") 1)) (Int 1));;
  Assign (LFld (LVar "this") 2) (Bin Oadd (Read (LFld (LVar "this") 2)) (Int 1));;
  Assign (LFld (LVar "this") 3) (Bin Oadd (Read (LFld (LVar "this") 3)) (Int 1));;
  Return (Var "tmp")).
(** src/ivec4.cpp 136-143 *)
Definition c_ivec4__predec : fundef fn := Fun ["this"] [Tcls Civec4] (RRef (Tcls Civec4)) ["this"] (
  Assign (LFld (LVar "this") 0) (Bin Osub (Read (LFld (LVar "this") 0)) (Int 1));;
  Assign (LFld (LVar "this") 1) (Bin Osub (Read (LFld (LVar "this") 1)) (Int 1));;
  Assign (LFld (LVar "this") 2) (Bin Osub (Read (LFld (LVar "this") 2)) (Int 1));;
  Assign (LFld (LVar "this") 3) (Bin Osub (Read (LFld (LVar "this") 3)) (Int 1));;
  ReturnRef (LVar "this")).
(** src/ivec4.cpp 145-153 *)
Definition c_ivec4__postdec : fundef fn := Fun ["this"] [Tcls Civec4] (RVal (Tcls Civec4)) ["this"] (
  Decl "tmp" (Some (Var "this"));;
  Assign (LFld (LVar "this") 0) (Bin Osub (Read (LFld (LVar "this") 0)) (Int 1));;
  Assign (LFld (LVar "this") 1) (Bin Osub (Read (LFld (LVar "this") 1)) (Int 1));;
  Assign (LFld (LVar "this") 2) (Bin Osub (Read (LFld (LVar "this") 2)) (Int 1));;
  Assign (LFld (LVar "this") 3) (Bin Osub (Read (LFld (LVar "this") 3)) (Int 1));;
  Return (Var "tmp")).
(** src/ivec4.cpp 155-158 *)
Definition c_op_eq_ivec4_ivec4 : fundef fn := Fun ["first"; "second"] [Tcls Civec4; Tcls Civec4] (RVal Tbool) [] (
  Return (And (And (And (Bin Oeq (Read (LFld (LVar "first") 0)) (Read (LFld (LVar "second") 0))) (Bin Oeq (Read (LFld (LVar "first") 1)) (Read (LFld
    (LVar "second") 1)))) (Bin Oeq (Read (LFld (LVar "first") 2)) (Read (LFld (LVar "second") 2)))) (Bin Oeq (Read (LFld (LVar "first") 3)) (Read
    (LFld (LVar "second") 3))))).
(** src/ivec4.cpp 160-163 *)
Definition c_op_ne_ivec4_ivec4 : fundef fn := Fun ["first"; "second"] [Tcls Civec4; Tcls Civec4] (RVal Tbool) [] (
  Return (Un Onot (Call op_eq_ivec4_ivec4 <<Var "first"; Var "second">>))).
(** src/ivec4.cpp 165-175 *)
Definition c_op_lt_ivec4_ivec4 : fundef fn := Fun ["first"; "second"] [Tcls Civec4; Tcls Civec4] (RVal Tbool) [] (
  If (Bin Olt (Read (LFld (LVar "first") 0)) (Read (LFld (LVar "second") 0))) (Return (Bool true)) Skip;;
  If (Bin Ogt (Read (LFld (LVar "first") 0)) (Read (LFld (LVar "second") 0))) (Return (Bool false)) Skip;;
  If (Bin Olt (Read (LFld (LVar "first") 1)) (Read (LFld (LVar "second") 1))) (Return (Bool true)) Skip;;
  If (Bin Ogt (Read (LFld (LVar "first") 1)) (Read (LFld (LVar "second") 1))) (Return (Bool false)) Skip;;
  If (Bin Olt (Read (LFld (LVar "first") 2)) (Read (LFld (LVar "second") 2))) (Return (Bool true)) Skip;;
  If (Bin Ogt (Read (LFld (LVar "first") 2)) (Read (LFld (LVar "second") 2))) (Return (Bool false)) Skip;;
  If (Bin Olt (Read (LFld (LVar "first") 3)) (Read (LFld (LVar "second") 3))) (Return (Bool true)) Skip;;
  Return (Bool false)).
(** src/ivec4.cpp 177-180 *)
Definition c_op_le_ivec4_ivec4 : fundef fn := Fun ["first"; "second"] [Tcls Civec4; Tcls Civec4] (RVal Tbool) [] (
  Return (Un Onot (Call op_lt_ivec4_ivec4 <<Var "second"; Var "first">>))).
(** src/ivec4.cpp 182-185 *)
Definition c_op_gt_ivec4_ivec4 : fundef fn := Fun ["first"; "second"] [Tcls Civec4; Tcls Civec4] (RVal Tbool) [] (
  Return (Call op_lt_ivec4_ivec4 <<Var "second"; Var "first">>)).
(** src/ivec4.cpp 187-190 *)
Definition c_op_ge_ivec4_ivec4 : fundef fn := Fun ["first"; "second"] [Tcls Civec4; Tcls Civec4] (RVal Tbool) [] (
  Return (Un Onot (Call op_lt_ivec4_ivec4 <<Var "first"; Var "second">>))).
(** src/ivec4.cpp 193-197 *)
Definition c_ivec4__index : fundef fn := Fun ["this"; "val"] [Tcls Civec4; Tuint] (RRef Tint) [] (
  Assert (Bin Olt (Var "val") (UInt 4));;
  ReturnRef (LSub (LVar "this") (Var "val"))).
(** src/ivec4.cpp 199-203 *)
Definition c_ivec4__index_const : fundef fn := Fun ["this"; "val"] [Tcls Civec4; Tuint] (RVal Tint) [] (
  Assert (Bin Olt (Var "val") (UInt 4));;
  Return (Read (LSub (LVar "this") (Var "val")))).
(** src/ivec4.cpp 205-208 *)
Definition c_ivec4__to_bvec4 : fundef fn := Fun ["this"] [Tcls Civec4] (RVal (Tcls Cbvec4)) [] (
  Return (Call bvec4__bool_bool_bool_bool <<Conv Tbool (Read (LFld (LVar "this") 0)); Conv Tbool (Read (LFld (LVar "this") 1)); Conv Tbool (Read (LFld
    (LVar "this") 2)); Conv Tbool (Read (LFld (LVar "this") 3))>>)).

(** ** src/bvec2.cpp *)
(** src/bvec2.cpp 10-12 *)
Definition c_bvec2__default : fundef fn := Fun [] [] (RVal (Tcls Cbvec2)) [] (
  Decl "this" (Some (Call bvec2__bool <<Bool false>>));;
  Made).
(** src/bvec2.cpp 14-17 *)
Definition c_bvec2__bool : fundef fn := Fun ["value"] [Tbool] (RVal (Tcls Cbvec2)) [] (
  Decl "this" (Some (New Cbvec2 ENil));;
  Assign (LFld (LVar "this") 0) (Var "value");;
  Assign (LFld (LVar "this") 1) (Var "value");;
  Made).
(** src/bvec2.cpp 19-22 *)
Definition c_bvec2__bool_bool : fundef fn := Fun ["_x"; "_y"] [Tbool; Tbool] (RVal (Tcls Cbvec2)) [] (
  Decl "this" (Some (New Cbvec2 ENil));;
  Assign (LFld (LVar "this") 0) (Var "_x");;
  Assign (LFld (LVar "this") 1) (Var "_y");;
  Made).
(** src/bvec2.cpp 24-28 *)
Definition c_op_land_bvec2_bvec2 : fundef fn := Fun ["first"; "second"] [Tcls Cbvec2; Tcls Cbvec2] (RVal (Tcls Cbvec2)) [] (
  Return (Call bvec2__bool_bool <<And (Read (LFld (LVar "first") 0)) (Read (LFld (LVar "second") 0)); And (Read (LFld (LVar "first") 1)) (Read (LFld
    (LVar "second") 1))>>)).
(** src/bvec2.cpp 30-34 *)
Definition c_op_land_bvec2_bool : fundef fn := Fun ["vec"; "scalar"] [Tcls Cbvec2; Tbool] (RVal (Tcls Cbvec2)) [] (
  Return (Call bvec2__bool_bool <<And (Read (LFld (LVar "vec") 0)) (Var "scalar"); And (Read (LFld (LVar "vec") 1)) (Var "scalar")>>)).
(** src/bvec2.cpp 36-40 *)
Definition c_op_land_bool_bvec2 : fundef fn := Fun ["scalar"; "vec"] [Tbool; Tcls Cbvec2] (RVal (Tcls Cbvec2)) [] (
  Return (Call bvec2__bool_bool <<And (Read (LFld (LVar "vec") 0)) (Var "scalar"); And (Read (LFld (LVar "vec") 1)) (Var "scalar")>>)).
(** src/bvec2.cpp 43-47 *)
Definition c_op_lor_bvec2_bvec2 : fundef fn := Fun ["first"; "second"] [Tcls Cbvec2; Tcls Cbvec2] (RVal (Tcls Cbvec2)) [] (
  Return (Call bvec2__bool_bool <<Or (Read (LFld (LVar "first") 0)) (Read (LFld (LVar "second") 0)); Or (Read (LFld (LVar "first") 1)) (Read (LFld (LVar
    "second") 1))>>)).
(** src/bvec2.cpp 49-53 *)
Definition c_op_lor_bvec2_bool : fundef fn := Fun ["vec"; "scalar"] [Tcls Cbvec2; Tbool] (RVal (Tcls Cbvec2)) [] (
  Return (Call bvec2__bool_bool <<Or (Read (LFld (LVar "vec") 0)) (Var "scalar"); Or (Read (LFld (LVar "vec") 1)) (Var "scalar")>>)).
(** src/bvec2.cpp 55-59 *)
Definition c_op_lor_bool_bvec2 : fundef fn := Fun ["scalar"; "vec"] [Tbool; Tcls Cbvec2] (RVal (Tcls Cbvec2)) [] (
  Return (Call bvec2__bool_bool <<Or (Read (LFld (LVar "vec") 0)) (Var "scalar"); Or (Read (LFld (LVar "vec") 1)) (Var "scalar")>>)).
(** src/bvec2.cpp 62-66 *)
Definition c_op_xor_bvec2_bvec2 : fundef fn := Fun ["first"; "second"] [Tcls Cbvec2; Tcls Cbvec2] (RVal (Tcls Cbvec2)) [] (
  Return (Call bvec2__bool_bool <<Conv Tbool (Bin Oxor (Conv Tint (Read (LFld (LVar "first") 0))) (Conv Tint (Read (LFld (LVar "second") 0)))); Conv
    Tbool (Bin Oxor (Conv Tint (Read (LFld (LVar "first") 1))) (Conv Tint (Read (LFld (LVar "second") 1))))>>)).
(** src/bvec2.cpp 68-72 *)
Definition c_op_xor_bvec2_bool : fundef fn := Fun ["first"; "scalar"] [Tcls Cbvec2; Tbool] (RVal (Tcls Cbvec2)) [] (
  Return (Call bvec2__bool_bool <<Conv Tbool (Bin Oxor (Conv Tint (Read (LFld (LVar "first") 0))) (Conv Tint (Var "scalar"))); Conv Tbool (Bin Oxor
    (Conv Tint (Read (LFld (LVar "first") 1))) (Conv Tint (Var "scalar")))>>)).
(** src/bvec2.cpp 74-78 *)
Definition c_op_xor_bool_bvec2 : fundef fn := Fun ["scalar"; "first"] [Tbool; Tcls Cbvec2] (RVal (Tcls Cbvec2)) [] (
  Return (Call bvec2__bool_bool <<Conv Tbool (Bin Oxor (Conv Tint (Read (LFld (LVar "first") 0))) (Conv Tint (Var "scalar"))); Conv Tbool (Bin Oxor
    (Conv Tint (Read (LFld (LVar "first") 1))) (Conv Tint (Var "scalar")))>>)).
(** src/bvec2.cpp 80-84 *)
Definition c_op_not_bvec2 : fundef fn := Fun ["first"] [Tcls Cbvec2] (RVal (Tcls Cbvec2)) [] (
  Return (Call bvec2__bool_bool <<Un Onot (Read (LFld (LVar "first") 0)); Un Onot (Read (LFld (LVar "first") 1))>>)).
(** src/bvec2.cpp 87-91 *)
Definition c_bvec2__op_and_assign_bool : fundef fn := Fun ["this"; "scalar"] [Tcls Cbvec2; Tbool] RVoid ["this"] (
  Assign (LFld (LVar "this") 0) (Conv Tbool (Bin Oand (Conv Tint (Read (LFld (LVar "this") 0))) (Conv Tint (Var "scalar"))));;
  Assign (LFld (LVar "this") 1) (Conv Tbool (Bin Oand (Conv Tint (Read (LFld (LVar "this") 1))) (Conv Tint (Var "scalar"))))).
(** src/bvec2.cpp 93-97 *)
Definition c_bvec2__op_or_assign_bool : fundef fn := Fun ["this"; "scalar"] [Tcls Cbvec2; Tbool] RVoid ["this"] (
  Assign (LFld (LVar "this") 0) (Conv Tbool (Bin Oor (Conv Tint (Read (LFld (LVar "this") 0))) (Conv Tint (Var "scalar"))));;
  Assign (LFld (LVar "this") 1) (Conv Tbool (Bin Oor (Conv Tint (Read (LFld (LVar "this") 1))) (Conv Tint (Var "scalar"))))).
(** src/bvec2.cpp 99-103 *)
Definition c_bvec2__op_xor_assign_bool : fundef fn := Fun ["this"; "scalar"] [Tcls Cbvec2; Tbool] RVoid ["this"] (
  Assign (LFld (LVar "this") 0) (Conv Tbool (Bin Oxor (Conv Tint (Read (LFld (LVar "this") 0))) (Conv Tint (Var "scalar"))));;
  Assign (LFld (LVar "this") 1) (Conv Tbool (Bin Oxor (Conv Tint (Read (LFld (LVar "this") 1))) (Conv Tint (Var "scalar"))))).
(** src/bvec2.cpp 105-109 *)
Definition c_bvec2__op_and_assign_bvec2 : fundef fn := Fun ["this"; "other"] [Tcls Cbvec2; Tcls Cbvec2] RVoid ["this"] (
  Assign (LFld (LVar "this") 0) (Conv Tbool (Bin Oand (Conv Tint (Read (LFld (LVar "this") 0))) (Conv Tint (Read (LFld (LVar "other") 0)))));;
  Assign (LFld (LVar "this") 1) (Conv Tbool (Bin Oand (Conv Tint (Read (LFld (LVar "this") 1))) (Conv Tint (Read (LFld (LVar "other") 1)))))).
(** src/bvec2.cpp 111-115 *)
Definition c_bvec2__op_or_assign_bvec2 : fundef fn := Fun ["this"; "other"] [Tcls Cbvec2; Tcls Cbvec2] RVoid ["this"] (
  Assign (LFld (LVar "this") 0) (Conv Tbool (Bin Oor (Conv Tint (Read (LFld (LVar "this") 0))) (Conv Tint (Read (LFld (LVar "other") 0)))));;
  Assign (LFld (LVar "this") 1) (Conv Tbool (Bin Oor (Conv Tint (Read (LFld (LVar "this") 1))) (Conv Tint (Read (LFld (LVar "other") 1)))))).
(** src/bvec2.cpp 117-121 *)
Definition c_bvec2__op_xor_assign_bvec2 : fundef fn := Fun ["this"; "other"] [Tcls Cbvec2; Tcls Cbvec2] RVoid ["this"] (
  Assign (LFld (LVar "this") 0) (Conv Tbool (Bin Oxor (Conv Tint (Read (LFld (LVar "this") 0))) (Conv Tint (Read (LFld (LVar "other") 0)))));;
  Assign (LFld (LVar "this") 1) (Conv Tbool (Bin Oxor (Conv Tint (Read (LFld (LVar "this") 1))) (Conv Tint (Read (LFld (LVar "other") 1)))))).
(** src/bvec2.cpp 123-126 *)
Definition c_op_eq_bvec2_bvec2 : fundef fn := Fun ["first"; "second"] [Tcls Cbvec2; Tcls Cbvec2] (RVal Tbool) [] (
  Return (And (Bin Oeq (Conv Tint (Read (LFld (LVar "first") 0))) (Conv Tint (Read (LFld (LVar "second") 0)))) (Bin Oeq (Conv Tint (Read (LFld (LVar
    "first") 1))) (Conv Tint (Read (LFld (LVar "second") 1)))))).
(** src/bvec2.cpp 128-131 *)
Definition c_op_ne_bvec2_bvec2 : fundef fn := Fun ["first"; "second"] [Tcls Cbvec2; Tcls Cbvec2] (RVal Tbool) [] (
  Return (Un Onot (Call op_eq_bvec2_bvec2 <<Var "first"; Var "second">>))).
(** src/bvec2.cpp 133-143 *)
Definition c_bvec2__index : fundef fn := Fun ["this"; "val"] [Tcls Cbvec2; Tuint] (RRef Tbool) [] (
  Assert (Bin Olt (Var "val") (UInt 3));;
  If (Bin Oeq (Var "val") (UInt 0)) (ReturnRef (LFld (LVar "this") 0)) (ReturnRef (LFld (LVar "this") 1))).
(** src/bvec2.cpp 145-155 *)
Definition c_bvec2__index_const : fundef fn := Fun ["this"; "val"] [Tcls Cbvec2; Tuint] (RVal Tbool) [] (
  Assert (Bin Olt (Var "val") (UInt 3));;
  If (Bin Oeq (Var "val") (UInt 0)) (Return (Read (LFld (LVar "this") 0))) (Return (Read (LFld (LVar "this") 1)))).
(** src/bvec2.cpp 157-161 *)
Definition c_make_bvec2_bool_ptr : fundef fn := Fun ["ptr"] [Tptr Tbool] (RVal (Tcls Cbvec2)) [] (
  Assert (Conv Tbool (Var "ptr"));;
  Return (Call bvec2__bool_bool <<Deref (Var "ptr") 0; Deref (Var "ptr") 1>>)).

(** ** src/bvec3.cpp *)
(** src/bvec3.cpp 10-12 *)
Definition c_bvec3__default : fundef fn := Fun [] [] (RVal (Tcls Cbvec3)) [] (
  Decl "this" (Some (Call bvec3__bool <<Bool false>>));;
  Made).
(** src/bvec3.cpp 14-18 *)
Definition c_bvec3__bool : fundef fn := Fun ["value"] [Tbool] (RVal (Tcls Cbvec3)) [] (
  Decl "this" (Some (New Cbvec3 ENil));;
  Assign (LFld (LVar "this") 0) (Var "value");;
  Assign (LFld (LVar "this") 1) (Var "value");;
  Assign (LFld (LVar "this") 2) (Var "value");;
  Made).
(** src/bvec3.cpp 20-24 *)
Definition c_bvec3__bool_bool_bool : fundef fn := Fun ["_x"; "_y"; "_z"] [Tbool; Tbool; Tbool] (RVal (Tcls Cbvec3)) [] (
  Decl "this" (Some (New Cbvec3 ENil));;
  Assign (LFld (LVar "this") 0) (Var "_x");;
  Assign (LFld (LVar "this") 1) (Var "_y");;
  Assign (LFld (LVar "this") 2) (Var "_z");;
  Made).
(** src/bvec3.cpp 26-30 *)
Definition c_bvec3__bvec2_bool : fundef fn := Fun ["xy"; "_z"] [Tcls Cbvec2; Tbool] (RVal (Tcls Cbvec3)) [] (
  Decl "this" (Some (New Cbvec3 ENil));;
  Assign (LFld (LVar "this") 0) (Read (LFld (LVar "xy") 0));;
  Assign (LFld (LVar "this") 1) (Read (LFld (LVar "xy") 1));;
  Assign (LFld (LVar "this") 2) (Var "_z");;
  Made).
(** src/bvec3.cpp 32-36 *)
Definition c_bvec3__bool_bvec2 : fundef fn := Fun ["_x"; "yz"] [Tbool; Tcls Cbvec2] (RVal (Tcls Cbvec3)) [] (
  Decl "this" (Some (New Cbvec3 ENil));;
  Assign (LFld (LVar "this") 0) (Var "_x");;
  Assign (LFld (LVar "this") 1) (Read (LFld (LVar "yz") 0));;
  Assign (LFld (LVar "this") 2) (Read (LFld (LVar "yz") 1));;
  Made).
(** src/bvec3.cpp 39-44 *)
Definition c_op_land_bvec3_bvec3 : fundef fn := Fun ["first"; "second"] [Tcls Cbvec3; Tcls Cbvec3] (RVal (Tcls Cbvec3)) [] (
  Return (Call bvec3__bool_bool_bool <<And (Read (LFld (LVar "first") 0)) (Read (LFld (LVar "second") 0)); And (Read (LFld (LVar "first") 1)) (Read
    (LFld (LVar "second") 1)); And (Read (LFld (LVar "first") 2)) (Read (LFld (LVar "second") 2))>>)).
(** src/bvec3.cpp 46-51 *)
Definition c_op_land_bvec3_bool : fundef fn := Fun ["vec"; "scalar"] [Tcls Cbvec3; Tbool] (RVal (Tcls Cbvec3)) [] (
  Return (Call bvec3__bool_bool_bool <<And (Read (LFld (LVar "vec") 0)) (Var "scalar"); And (Read (LFld (LVar "vec") 1)) (Var "scalar"); And (Read (LFld
    (LVar "vec") 2)) (Var "scalar")>>)).
(** src/bvec3.cpp 53-58 *)
Definition c_op_land_bool_bvec3 : fundef fn := Fun ["scalar"; "vec"] [Tbool; Tcls Cbvec3] (RVal (Tcls Cbvec3)) [] (
  Return (Call bvec3__bool_bool_bool <<And (Read (LFld (LVar "vec") 0)) (Var "scalar"); And (Read (LFld (LVar "vec") 1)) (Var "scalar"); And (Read (LFld
    (LVar "vec") 2)) (Var "scalar")>>)).
(** src/bvec3.cpp 61-66 *)
Definition c_op_lor_bvec3_bvec3 : fundef fn := Fun ["first"; "second"] [Tcls Cbvec3; Tcls Cbvec3] (RVal (Tcls Cbvec3)) [] (
  Return (Call bvec3__bool_bool_bool <<Or (Read (LFld (LVar "first") 0)) (Read (LFld (LVar "second") 0)); Or (Read (LFld (LVar "first") 1)) (Read (LFld
    (LVar "second") 1)); Or (Read (LFld (LVar "first") 2)) (Read (LFld (LVar "second") 2))>>)).
(** src/bvec3.cpp 68-73 *)
Definition c_op_lor_bvec3_bool : fundef fn := Fun ["vec"; "scalar"] [Tcls Cbvec3; Tbool] (RVal (Tcls Cbvec3)) [] (
  Return (Call bvec3__bool_bool_bool <<Or (Read (LFld (LVar "vec") 0)) (Var "scalar"); Or (Read (LFld (LVar "vec") 1)) (Var "scalar"); Or (Read (LFld
    (LVar "vec") 2)) (Var "scalar")>>)).
(** src/bvec3.cpp 75-80 *)
Definition c_op_lor_bool_bvec3 : fundef fn := Fun ["scalar"; "vec"] [Tbool; Tcls Cbvec3] (RVal (Tcls Cbvec3)) [] (
  Return (Call bvec3__bool_bool_bool <<Or (Read (LFld (LVar "vec") 0)) (Var "scalar"); Or (Read (LFld (LVar "vec") 1)) (Var "scalar"); Or (Read (LFld
    (LVar "vec") 2)) (Var "scalar")>>)).
(** src/bvec3.cpp 83-88 *)
Definition c_op_xor_bvec3_bvec3 : fundef fn := Fun ["first"; "second"] [Tcls Cbvec3; Tcls Cbvec3] (RVal (Tcls Cbvec3)) [] (
  Return (Call bvec3__bool_bool_bool <<Conv Tbool (Bin Oxor (Conv Tint (Read (LFld (LVar "first") 0))) (Conv Tint (Read (LFld (LVar "second") 0))));
    Conv Tbool (Bin Oxor (Conv Tint (Read (LFld (LVar "first") 1))) (Conv Tint (Read (LFld (LVar "second") 1)))); Conv Tbool (Bin Oxor (Conv Tint
    (Read (LFld (LVar "first") 2))) (Conv Tint (Read (LFld (LVar "second") 2))))>>)).
(** src/bvec3.cpp 90-95 *)
Definition c_op_xor_bvec3_bool : fundef fn := Fun ["first"; "scalar"] [Tcls Cbvec3; Tbool] (RVal (Tcls Cbvec3)) [] (
  Return (Call bvec3__bool_bool_bool <<Conv Tbool (Bin Oxor (Conv Tint (Read (LFld (LVar "first") 0))) (Conv Tint (Var "scalar"))); Conv Tbool (Bin Oxor
    (Conv Tint (Read (LFld (LVar "first") 1))) (Conv Tint (Var "scalar"))); Conv Tbool (Bin Oxor (Conv Tint (Read (LFld (LVar "first") 2))) (Conv Tint
    (Var "scalar")))>>)).
(** src/bvec3.cpp 97-102 *)
Definition c_op_xor_bool_bvec3 : fundef fn := Fun ["scalar"; "first"] [Tbool; Tcls Cbvec3] (RVal (Tcls Cbvec3)) [] (
  Return (Call bvec3__bool_bool_bool <<Conv Tbool (Bin Oxor (Conv Tint (Read (LFld (LVar "first") 0))) (Conv Tint (Var "scalar"))); Conv Tbool (Bin Oxor
    (Conv Tint (Read (LFld (LVar "first") 1))) (Conv Tint (Var "scalar"))); Conv Tbool (Bin Oxor (Conv Tint (Read (LFld (LVar "first") 2))) (Conv Tint
    (Var "scalar")))>>)).
(** src/bvec3.cpp 104-109 *)
Definition c_op_not_bvec3 : fundef fn := Fun ["first"] [Tcls Cbvec3] (RVal (Tcls Cbvec3)) [] (
  Return (Call bvec3__bool_bool_bool <<Un Onot (Read (LFld (LVar "first") 0)); Un Onot (Read (LFld (LVar "first") 1)); Un Onot (Read (LFld (LVar
    "first") 2))>>)).
(** src/bvec3.cpp 111-116 *)
Definition c_bvec3__op_and_assign_bool : fundef fn := Fun ["this"; "scalar"] [Tcls Cbvec3; Tbool] RVoid ["this"] (
  Assign (LFld (LVar "this") 0) (Conv Tbool (Bin Oand (Conv Tint (Read (LFld (LVar "this") 0))) (Conv Tint (Var "scalar"))));;
  Assign (LFld (LVar "this") 1) (Conv Tbool (Bin Oand (Conv Tint (Read (LFld (LVar "this") 1))) (Conv Tint (Var "scalar"))));;
  Assign (LFld (LVar "this") 2) (Conv Tbool (Bin Oand (Conv Tint (Read (LFld (LVar "this") 2))) (Conv Tint (Var "scalar"))))).
(** src/bvec3.cpp 118-123 *)
Definition c_bvec3__op_or_assign_bool : fundef fn := Fun ["this"; "scalar"] [Tcls Cbvec3; Tbool] RVoid ["this"] (
  Assign (LFld (LVar "this") 0) (Conv Tbool (Bin Oor (Conv Tint (Read (LFld (LVar "this") 0))) (Conv Tint (Var "scalar"))));;
  Assign (LFld (LVar "this") 1) (Conv Tbool (Bin Oor (Conv Tint (Read (LFld (LVar "this") 1))) (Conv Tint (Var "scalar"))));;
  Assign (LFld (LVar "this") 2) (Conv Tbool (Bin Oor (Conv Tint (Read (LFld (LVar "this") 2))) (Conv Tint (Var "scalar"))))).
(** src/bvec3.cpp 125-130 *)
Definition c_bvec3__op_xor_assign_bool : fundef fn := Fun ["this"; "scalar"] [Tcls Cbvec3; Tbool] RVoid ["this"] (
  Assign (LFld (LVar "this") 0) (Conv Tbool (Bin Oxor (Conv Tint (Read (LFld (LVar "this") 0))) (Conv Tint (Var "scalar"))));;
  Assign (LFld (LVar "this") 1) (Conv Tbool (Bin Oxor (Conv Tint (Read (LFld (LVar "this") 1))) (Conv Tint (Var "scalar"))));;
  Assign (LFld (LVar "this") 2) (Conv Tbool (Bin Oxor (Conv Tint (Read (LFld (LVar "this") 2))) (Conv Tint (Var "scalar"))))).
(** src/bvec3.cpp 132-137 *)
Definition c_bvec3__op_and_assign_bvec3 : fundef fn := Fun ["this"; "other"] [Tcls Cbvec3; Tcls Cbvec3] RVoid ["this"] (
  Assign (LFld (LVar "this") 0) (Conv Tbool (Bin Oand (Conv Tint (Read (LFld (LVar "this") 0))) (Conv Tint (Read (LFld (LVar "other") 0)))));;
  Assign (LFld (LVar "this") 1) (Conv Tbool (Bin Oand (Conv Tint (Read (LFld (LVar "this") 1))) (Conv Tint (Read (LFld (LVar "other") 1)))));;
  Assign (LFld (LVar "this") 2) (Conv Tbool (Bin Oand (Conv Tint (Read (LFld (LVar "this") 2))) (Conv Tint (Read (LFld (LVar "other") 2)))))).
(** src/bvec3.cpp 139-144 *)
Definition c_bvec3__op_or_assign_bvec3 : fundef fn := Fun ["this"; "other"] [Tcls Cbvec3; Tcls Cbvec3] RVoid ["this"] (
  Assign (LFld (LVar "this") 0) (Conv Tbool (Bin Oor (Conv Tint (Read (LFld (LVar "this") 0))) (Conv Tint (Read (LFld (LVar "other") 0)))));;
  Assign (LFld (LVar "this") 1) (Conv Tbool (Bin Oor (Conv Tint (Read (LFld (LVar "this") 1))) (Conv Tint (Read (LFld (LVar "other") 1)))));;
  Assign (LFld (LVar "this") 2) (Conv Tbool (Bin Oor (Conv Tint (Read (LFld (LVar "this") 2))) (Conv Tint (Read (LFld (LVar "other") 2)))))).
(** src/bvec3.cpp 146-151 *)
Definition c_bvec3__op_xor_assign_bvec3 : fundef fn := Fun ["this"; "other"] [Tcls Cbvec3; Tcls Cbvec3] RVoid ["this"] (
  Assign (LFld (LVar "this") 0) (Conv Tbool (Bin Oxor (Conv Tint (Read (LFld (LVar "this") 0))) (Conv Tint (Read (LFld (LVar "other") 0)))));;
  Assign (LFld (LVar "this") 1) (Conv Tbool (Bin Oxor (Conv Tint (Read (LFld (LVar "this") 1))) (Conv Tint (Read (LFld (LVar "other") 1)))));;
  Assign (LFld (LVar "this") 2) (Conv Tbool (Bin Oxor (Conv Tint (Read (LFld (LVar "this") 2))) (Conv Tint (Read (LFld (LVar "other") 2)))))).
(** src/bvec3.cpp 153-156 *)
Definition c_op_eq_bvec3_bvec3 : fundef fn := Fun ["first"; "second"] [Tcls Cbvec3; Tcls Cbvec3] (RVal Tbool) [] (
  Return (And (And (Bin Oeq (Conv Tint (Read (LFld (LVar "first") 0))) (Conv Tint (Read (LFld (LVar "second") 0)))) (Bin Oeq (Conv Tint (Read (LFld
    (LVar "first") 1))) (Conv Tint (Read (LFld (LVar "second") 1))))) (Bin Oeq (Conv Tint (Read (LFld (LVar "first") 2))) (Conv Tint (Read (LFld (LVar
    "second") 2)))))).
(** src/bvec3.cpp 158-161 *)
Definition c_op_ne_bvec3_bvec3 : fundef fn := Fun ["first"; "second"] [Tcls Cbvec3; Tcls Cbvec3] (RVal Tbool) [] (
  Return (Un Onot (Call op_eq_bvec3_bvec3 <<Var "first"; Var "second">>))).
(** src/bvec3.cpp 164-177 *)
Definition c_bvec3__index : fundef fn := Fun ["this"; "val"] [Tcls Cbvec3; Tuint] (RRef Tbool) [] (
  Assert (Bin Olt (Var "val") (UInt 3));;
  If (Bin Oeq (Var "val") (UInt 0)) (ReturnRef (LFld (LVar "this") 0)) (If (Bin Oeq (Var "val") (UInt 1)) (ReturnRef (LFld (LVar "this") 1)) (ReturnRef
    (LFld (LVar "this") 2)))).
(** src/bvec3.cpp 179-192 *)
Definition c_bvec3__index_const : fundef fn := Fun ["this"; "val"] [Tcls Cbvec3; Tuint] (RVal Tbool) [] (
  Assert (Bin Olt (Var "val") (UInt 3));;
  If (Bin Oeq (Var "val") (UInt 0)) (Return (Read (LFld (LVar "this") 0))) (If (Bin Oeq (Var "val") (UInt 1)) (Return (Read (LFld (LVar "this") 1)))
    (Return (Read (LFld (LVar "this") 2))))).
(** src/bvec3.cpp 194-198 *)
Definition c_make_bvec3_bool_ptr : fundef fn := Fun ["ptr"] [Tptr Tbool] (RVal (Tcls Cbvec3)) [] (
  Assert (Conv Tbool (Var "ptr"));;
  Return (Call bvec3__bool_bool_bool <<Deref (Var "ptr") 0; Deref (Var "ptr") 1; Deref (Var "ptr") 2>>)).

(** ** src/bvec4.cpp *)
(** src/bvec4.cpp 10-12 *)
Definition c_bvec4__default : fundef fn := Fun [] [] (RVal (Tcls Cbvec4)) [] (
  Decl "this" (Some (Call bvec4__bool <<Bool false>>));;
  Made).
(** src/bvec4.cpp 14-19 *)
Definition c_bvec4__bool : fundef fn := Fun ["value"] [Tbool] (RVal (Tcls Cbvec4)) [] (
  Decl "this" (Some (New Cbvec4 ENil));;
  Assign (LFld (LVar "this") 0) (Var "value");;
  Assign (LFld (LVar "this") 1) (Var "value");;
  Assign (LFld (LVar "this") 2) (Var "value");;
  Assign (LFld (LVar "this") 3) (Var "value");;
  Made).
(** src/bvec4.cpp 20-25 *)
Definition c_bvec4__bool_bool_bool_bool : fundef fn := Fun ["_x"; "_y"; "_z"; "_w"] [Tbool; Tbool; Tbool; Tbool] (RVal (Tcls Cbvec4)) [] (
  Decl "this" (Some (New Cbvec4 ENil));;
  Assign (LFld (LVar "this") 0) (Var "_x");;
  Assign (LFld (LVar "this") 1) (Var "_y");;
  Assign (LFld (LVar "this") 2) (Var "_z");;
  Assign (LFld (LVar "this") 3) (Var "_w");;
  Made).
(** src/bvec4.cpp 27-32 *)
Definition c_bvec4__bvec3_bool : fundef fn := Fun ["xyz"; "_w"] [Tcls Cbvec3; Tbool] (RVal (Tcls Cbvec4)) [] (
  Decl "this" (Some (New Cbvec4 ENil));;
  Assign (LFld (LVar "this") 0) (Read (LFld (LVar "xyz") 0));;
  Assign (LFld (LVar "this") 1) (Read (LFld (LVar "xyz") 1));;
  Assign (LFld (LVar "this") 2) (Read (LFld (LVar "xyz") 2));;
  Assign (LFld (LVar "this") 3) (Var "_w");;
  Made).
(** src/bvec4.cpp 34-39 *)
Definition c_bvec4__bool_bvec3 : fundef fn := Fun ["_x"; "yzw"] [Tbool; Tcls Cbvec3] (RVal (Tcls Cbvec4)) [] (
  Decl "this" (Some (New Cbvec4 ENil));;
  Assign (LFld (LVar "this") 0) (Var "_x");;
  Assign (LFld (LVar "this") 1) (Read (LFld (LVar "yzw") 0));;
  Assign (LFld (LVar "this") 2) (Read (LFld (LVar "yzw") 1));;
  Assign (LFld (LVar "this") 3) (Read (LFld (LVar "yzw") 2));;
  Made).
(** src/bvec4.cpp 41-46 *)
Definition c_bvec4__bvec2_bvec2 : fundef fn := Fun ["xy"; "zw"] [Tcls Cbvec2; Tcls Cbvec2] (RVal (Tcls Cbvec4)) [] (
  Decl "this" (Some (New Cbvec4 ENil));;
  Assign (LFld (LVar "this") 0) (Read (LFld (LVar "xy") 0));;
  Assign (LFld (LVar "this") 1) (Read (LFld (LVar "xy") 1));;
  Assign (LFld (LVar "this") 2) (Read (LFld (LVar "zw") 0));;
  Assign (LFld (LVar "this") 3) (Read (LFld (LVar "zw") 1));;
  Made).
(** src/bvec4.cpp 48-53 *)
Definition c_bvec4__bvec2_bool_bool : fundef fn := Fun ["xy"; "_z"; "_w"] [Tcls Cbvec2; Tbool; Tbool] (RVal (Tcls Cbvec4)) [] (
  Decl "this" (Some (New Cbvec4 ENil));;
  Assign (LFld (LVar "this") 0) (Read (LFld (LVar "xy") 0));;
  Assign (LFld (LVar "this") 1) (Read (LFld (LVar "xy") 1));;
  Assign (LFld (LVar "this") 2) (Var "_z");;
  Assign (LFld (LVar "this") 3) (Var "_w");;
  Made).
(** src/bvec4.cpp 55-60 *)
Definition c_bvec4__bool_bvec2_bool : fundef fn := Fun ["_x"; "yz"; "_w"] [Tbool; Tcls Cbvec2; Tbool] (RVal (Tcls Cbvec4)) [] (
  Decl "this" (Some (New Cbvec4 ENil));;
  Assign (LFld (LVar "this") 0) (Var "_x");;
  Assign (LFld (LVar "this") 1) (Read (LFld (LVar "yz") 0));;
  Assign (LFld (LVar "this") 2) (Read (LFld (LVar "yz") 1));;
  Assign (LFld (LVar "this") 3) (Var "_w");;
  Made).
(** src/bvec4.cpp 62-67 *)
Definition c_bvec4__bool_bool_bvec2 : fundef fn := Fun ["_x"; "_y"; "zw"] [Tbool; Tbool; Tcls Cbvec2] (RVal (Tcls Cbvec4)) [] (
  Decl "this" (Some (New Cbvec4 ENil));;
  Assign (LFld (LVar "this") 0) (Var "_x");;
  Assign (LFld (LVar "this") 1) (Var "_y");;
  Assign (LFld (LVar "this") 2) (Read (LFld (LVar "zw") 0));;
  Assign (LFld (LVar "this") 3) (Read (LFld (LVar "zw") 1));;
  Made).
(** src/bvec4.cpp 70-76 *)
Definition c_op_land_bvec4_bvec4 : fundef fn := Fun ["first"; "second"] [Tcls Cbvec4; Tcls Cbvec4] (RVal (Tcls Cbvec4)) [] (
  Return (Call bvec4__bool_bool_bool_bool <<And (Read (LFld (LVar "first") 0)) (Read (LFld (LVar "second") 0)); And (Read (LFld (LVar "first") 1)) (Read
    (LFld (LVar "second") 1)); And (Read (LFld (LVar "first") 2)) (Read (LFld (LVar "second") 2)); And (Read (LFld (LVar "first") 3)) (Read (LFld
    (LVar "second") 3))>>)).
(** src/bvec4.cpp 78-84 *)
Definition c_op_land_bvec4_bool : fundef fn := Fun ["vec"; "scalar"] [Tcls Cbvec4; Tbool] (RVal (Tcls Cbvec4)) [] (
  Return (Call bvec4__bool_bool_bool_bool <<And (Read (LFld (LVar "vec") 0)) (Var "scalar"); And (Read (LFld (LVar "vec") 1)) (Var "scalar"); And (Read
    (LFld (LVar "vec") 2)) (Var "scalar"); And (Read (LFld (LVar "vec") 3)) (Var "scalar")>>)).
(** src/bvec4.cpp 86-92 *)
Definition c_op_land_bool_bvec4 : fundef fn := Fun ["scalar"; "vec"] [Tbool; Tcls Cbvec4] (RVal (Tcls Cbvec4)) [] (
  Return (Call bvec4__bool_bool_bool_bool <<And (Read (LFld (LVar "vec") 0)) (Var "scalar"); And (Read (LFld (LVar "vec") 1)) (Var "scalar"); And (Read
    (LFld (LVar "vec") 2)) (Var "scalar"); And (Read (LFld (LVar "vec") 3)) (Var "scalar")>>)).
(** src/bvec4.cpp 95-101 *)
Definition c_op_lor_bvec4_bvec4 : fundef fn := Fun ["first"; "second"] [Tcls Cbvec4; Tcls Cbvec4] (RVal (Tcls Cbvec4)) [] (
  Return (Call bvec4__bool_bool_bool_bool <<Or (Read (LFld (LVar "first") 0)) (Read (LFld (LVar "second") 0)); Or (Read (LFld (LVar "first") 1)) (Read
    (LFld (LVar "second") 1)); Or (Read (LFld (LVar "first") 2)) (Read (LFld (LVar "second") 2)); Or (Read (LFld (LVar "first") 3)) (Read (LFld (LVar
    "second") 3))>>)).
(** src/bvec4.cpp 103-109 *)
Definition c_op_lor_bvec4_bool : fundef fn := Fun ["vec"; "scalar"] [Tcls Cbvec4; Tbool] (RVal (Tcls Cbvec4)) [] (
  Return (Call bvec4__bool_bool_bool_bool <<Or (Read (LFld (LVar "vec") 0)) (Var "scalar"); Or (Read (LFld (LVar "vec") 1)) (Var "scalar"); Or (Read
    (LFld (LVar "vec") 2)) (Var "scalar"); Or (Read (LFld (LVar "vec") 3)) (Var "scalar")>>)).
(** src/bvec4.cpp 111-117 *)
Definition c_op_lor_bool_bvec4 : fundef fn := Fun ["scalar"; "vec"] [Tbool; Tcls Cbvec4] (RVal (Tcls Cbvec4)) [] (
  Return (Call bvec4__bool_bool_bool_bool <<Or (Read (LFld (LVar "vec") 0)) (Var "scalar"); Or (Read (LFld (LVar "vec") 1)) (Var "scalar"); Or (Read
    (LFld (LVar "vec") 2)) (Var "scalar"); Or (Read (LFld (LVar "vec") 3)) (Var "scalar")>>)).
(** src/bvec4.cpp 120-126 *)
Definition c_op_xor_bvec4_bvec4 : fundef fn := Fun ["first"; "second"] [Tcls Cbvec4; Tcls Cbvec4] (RVal (Tcls Cbvec4)) [] (
  Return (Call bvec4__bool_bool_bool_bool <<Conv Tbool (Bin Oxor (Conv Tint (Read (LFld (LVar "first") 0))) (Conv Tint (Read (LFld (LVar "second")
    0)))); Conv Tbool (Bin Oxor (Conv Tint (Read (LFld (LVar "first") 1))) (Conv Tint (Read (LFld (LVar "second") 1)))); Conv Tbool (Bin Oxor (Conv
    Tint (Read (LFld (LVar "first") 2))) (Conv Tint (Read (LFld (LVar "second") 2)))); Conv Tbool (Bin Oxor (Conv Tint (Read (LFld (LVar "first") 3)))
    (Conv Tint (Read (LFld (LVar "second") 3))))>>)).
(** src/bvec4.cpp 128-134 *)
Definition c_op_xor_bvec4_bool : fundef fn := Fun ["first"; "scalar"] [Tcls Cbvec4; Tbool] (RVal (Tcls Cbvec4)) [] (
  Return (Call bvec4__bool_bool_bool_bool <<Conv Tbool (Bin Oxor (Conv Tint (Read (LFld (LVar "first") 0))) (Conv Tint (Var "scalar"))); Conv Tbool (Bin
    Oxor (Conv Tint (Read (LFld (LVar "first") 1))) (Conv Tint (Var "scalar"))); Conv Tbool (Bin Oxor (Conv Tint (Read (LFld (LVar "first") 2))) (Conv
    Tint (Var "scalar"))); Conv Tbool (Bin Oxor (Conv Tint (Read (LFld (LVar "first") 3))) (Conv Tint (Var "scalar")))>>)).
(** src/bvec4.cpp 136-142 *)
Definition c_op_xor_bool_bvec4 : fundef fn := Fun ["scalar"; "first"] [Tbool; Tcls Cbvec4] (RVal (Tcls Cbvec4)) [] (
  Return (Call bvec4__bool_bool_bool_bool <<Conv Tbool (Bin Oxor (Conv Tint (Read (LFld (LVar "first") 0))) (Conv Tint (Var "scalar"))); Conv Tbool (Bin
    Oxor (Conv Tint (Read (LFld (LVar "first") 1))) (Conv Tint (Var "scalar"))); Conv Tbool (Bin Oxor (Conv Tint (Read (LFld (LVar "first") 2))) (Conv
    Tint (Var "scalar"))); Conv Tbool (Bin Oxor (Conv Tint (Read (LFld (LVar "first") 3))) (Conv Tint (Var "scalar")))>>)).
(** src/bvec4.cpp 144-150 *)
Definition c_op_not_bvec4 : fundef fn := Fun ["first"] [Tcls Cbvec4] (RVal (Tcls Cbvec4)) [] (
  Return (Call bvec4__bool_bool_bool_bool <<Un Onot (Read (LFld (LVar "first") 0)); Un Onot (Read (LFld (LVar "first") 1)); Un Onot (Read (LFld (LVar
    "first") 2)); Un Onot (Read (LFld (LVar "first") 3))>>)).
(** src/bvec4.cpp 152-155 *)
Definition c_op_eq_bvec4_bvec4 : fundef fn := Fun ["first"; "second"] [Tcls Cbvec4; Tcls Cbvec4] (RVal Tbool) [] (
  Return (And (And (And (Bin Oeq (Conv Tint (Read (LFld (LVar "first") 0))) (Conv Tint (Read (LFld (LVar "second") 0)))) (Bin Oeq (Conv Tint (Read (LFld
    (LVar "first") 1))) (Conv Tint (Read (LFld (LVar "second") 1))))) (Bin Oeq (Conv Tint (Read (LFld (LVar "first") 2))) (Conv Tint (Read (LFld (LVar
    "second") 2))))) (Bin Oeq (Conv Tint (Read (LFld (LVar "first") 3))) (Conv Tint (Read (LFld (LVar "second") 3)))))).
(** src/bvec4.cpp 157-160 *)
Definition c_op_ne_bvec4_bvec4 : fundef fn := Fun ["first"; "second"] [Tcls Cbvec4; Tcls Cbvec4] (RVal Tbool) [] (
  Return (Un Onot (Call op_eq_bvec4_bvec4 <<Var "first"; Var "second">>))).
(** src/bvec4.cpp 162-168 *)
Definition c_bvec4__op_and_assign_bool : fundef fn := Fun ["this"; "scalar"] [Tcls Cbvec4; Tbool] RVoid ["this"] (
  Assign (LFld (LVar "this") 0) (Conv Tbool (Bin Oand (Conv Tint (Read (LFld (LVar "this") 0))) (Conv Tint (Var "scalar"))));;
  Assign (LFld (LVar "this") 1) (Conv Tbool (Bin Oand (Conv Tint (Read (LFld (LVar "this") 1))) (Conv Tint (Var "scalar"))));;
  Assign (LFld (LVar "this") 2) (Conv Tbool (Bin Oand (Conv Tint (Read (LFld (LVar "this") 2))) (Conv Tint (Var "scalar"))));;
  Assign (LFld (LVar "this") 3) (Conv Tbool (Bin Oand (Conv Tint (Read (LFld (LVar "this") 3))) (Conv Tint (Var "scalar"))))).
(** src/bvec4.cpp 170-176 *)
Definition c_bvec4__op_or_assign_bool : fundef fn := Fun ["this"; "scalar"] [Tcls Cbvec4; Tbool] RVoid ["this"] (
  Assign (LFld (LVar "this") 0) (Conv Tbool (Bin Oor (Conv Tint (Read (LFld (LVar "this") 0))) (Conv Tint (Var "scalar"))));;
  Assign (LFld (LVar "this") 1) (Conv Tbool (Bin Oor (Conv Tint (Read (LFld (LVar "this") 1))) (Conv Tint (Var "scalar"))));;
  Assign (LFld (LVar "this") 2) (Conv Tbool (Bin Oor (Conv Tint (Read (LFld (LVar "this") 2))) (Conv Tint (Var "scalar"))));;
  Assign (LFld (LVar "this") 3) (Conv Tbool (Bin Oor (Conv Tint (Read (LFld (LVar "this") 3))) (Conv Tint (Var "scalar"))))).
(** src/bvec4.cpp 178-184 *)
Definition c_bvec4__op_xor_assign_bool : fundef fn := Fun ["this"; "scalar"] [Tcls Cbvec4; Tbool] RVoid ["this"] (
  Assign (LFld (LVar "this") 0) (Conv Tbool (Bin Oxor (Conv Tint (Read (LFld (LVar "this") 0))) (Conv Tint (Var "scalar"))));;
  Assign (LFld (LVar "this") 1) (Conv Tbool (Bin Oxor (Conv Tint (Read (LFld (LVar "this") 1))) (Conv Tint (Var "scalar"))));;
  Assign (LFld (LVar "this") 2) (Conv Tbool (Bin Oxor (Conv Tint (Read (LFld (LVar "this") 2))) (Conv Tint (Var "scalar"))));;
  Assign (LFld (LVar "this") 3) (Conv Tbool (Bin Oxor (Conv Tint (Read (LFld (LVar "this") 3))) (Conv Tint (Var "scalar"))))).
(** src/bvec4.cpp 186-192 *)
Definition c_bvec4__op_and_assign_bvec4 : fundef fn := Fun ["this"; "other"] [Tcls Cbvec4; Tcls Cbvec4] RVoid ["this"] (
  Assign (LFld (LVar "this") 0) (Conv Tbool (Bin Oand (Conv Tint (Read (LFld (LVar "this") 0))) (Conv Tint (Read (LFld (LVar "other") 0)))));;
  Assign (LFld (LVar "this") 1) (Conv Tbool (Bin Oand (Conv Tint (Read (LFld (LVar "this") 1))) (Conv Tint (Read (LFld (LVar "other") 1)))));;
  Assign (LFld (LVar "this") 2) (Conv Tbool (Bin Oand (Conv Tint (Read (LFld (LVar "this") 2))) (Conv Tint (Read (LFld (LVar "other") 2)))));;
  Assign (LFld (LVar "this") 3) (Conv Tbool (Bin Oand (Conv Tint (Read (LFld (LVar "this") 3))) (Conv Tint (Read (LFld (LVar "other") 3)))))).
(** src/bvec4.cpp 194-200 *)
Definition c_bvec4__op_or_assign_bvec4 : fundef fn := Fun ["this"; "other"] [Tcls Cbvec4; Tcls Cbvec4] RVoid ["this"] (
  Assign (LFld (LVar "this") 0) (Conv Tbool (Bin Oor (Conv Tint (Read (LFld (LVar "this") 0))) (Conv Tint (Read (LFld (LVar "other") 0)))));;
  Assign (LFld (LVar "this") 1) (Conv Tbool (Bin Oor (Conv Tint (Read (LFld (LVar "this") 1))) (Conv Tint (Read (LFld (LVar "other") 1)))));;
  Assign (LFld (LVar "this") 2) (Conv Tbool (Bin Oor (Conv Tint (Read (LFld (LVar "this") 2))) (Conv Tint (Read (LFld (LVar "other") 2)))));;
  Assign (LFld (LVar "this") 3) (Conv Tbool (Bin Oor (Conv Tint (Read (LFld (LVar "this") 3))) (Conv Tint (Read (LFld (LVar "other") 3)))))).
(** src/bvec4.cpp 202-208 *)
Definition c_bvec4__op_xor_assign_bvec4 : fundef fn := Fun ["this"; "other"] [Tcls Cbvec4; Tcls Cbvec4] RVoid ["this"] (
  Assign (LFld (LVar "this") 0) (Conv Tbool (Bin Oxor (Conv Tint (Read (LFld (LVar "this") 0))) (Conv Tint (Read (LFld (LVar "other") 0)))));;
  Assign (LFld (LVar "this") 1) (Conv Tbool (Bin Oxor (Conv Tint (Read (LFld (LVar "this") 1))) (Conv Tint (Read (LFld (LVar "other") 1)))));;
  Assign (LFld (LVar "this") 2) (Conv Tbool (Bin Oxor (Conv Tint (Read (LFld (LVar "this") 2))) (Conv Tint (Read (LFld (LVar "other") 2)))));;
  Assign (LFld (LVar "this") 3) (Conv Tbool (Bin Oxor (Conv Tint (Read (LFld (LVar "this") 3))) (Conv Tint (Read (LFld (LVar "other") 3)))))).
(** src/bvec4.cpp 211-226 *)
Definition c_bvec4__index : fundef fn := Fun ["this"; "val"] [Tcls Cbvec4; Tuint] (RRef Tbool) [] (
  Assert (Bin Olt (Var "val") (UInt 4));;
  If (Bin Oeq (Var "val") (UInt 0)) (ReturnRef (LFld (LVar "this") 0)) (If (Bin Oeq (Var "val") (UInt 1)) (ReturnRef (LFld (LVar "this") 1)) (If (Bin
    Oeq (Var "val") (UInt 2)) (ReturnRef (LFld (LVar "this") 2)) (ReturnRef (LFld (LVar "this") 3))))).
(** src/bvec4.cpp 228-243 *)
Definition c_bvec4__index_const : fundef fn := Fun ["this"; "val"] [Tcls Cbvec4; Tuint] (RVal Tbool) [] (
  Assert (Bin Olt (Var "val") (UInt 4));;
  If (Bin Oeq (Var "val") (UInt 0)) (Return (Read (LFld (LVar "this") 0))) (If (Bin Oeq (Var "val") (UInt 1)) (Return (Read (LFld (LVar "this") 1))) (If
    (Bin Oeq (Var "val") (UInt 2)) (Return (Read (LFld (LVar "this") 2))) (Return (Read (LFld (LVar "this") 3)))))).
(** src/bvec4.cpp 245-249 *)
Definition c_make_bvec4_bool_ptr : fundef fn := Fun ["ptr"] [Tptr Tbool] (RVal (Tcls Cbvec4)) [] (
  Assert (Conv Tbool (Var "ptr"));;
  Return (Call bvec4__bool_bool_bool_bool <<Deref (Var "ptr") 0; Deref (Var "ptr") 1; Deref (Var "ptr") 2; Deref (Var "ptr") 3>>)).
