(** * src/angle_and_trigonometry.cpp and src/detail/utils.hpp *)
From Coq Require Import ZArith Bool List.
From Verif Require Import Scalar Outcome Types ModelVec.
Local Open Scope scalar_scope.

Section Trig.
Variable S : Scalar.

(** src/detail/utils.hpp 11-15 *)
Definition applyOp_f (v : S) (op : S -> S) : S := op v.
(** src/detail/utils.hpp 17-21 *)
Definition applyOp2 (v : vec2 S) (op : S -> S) : vec2 S := V2 (op (x2 v)) (op (y2 v)).
(** src/detail/utils.hpp 23-27 *)
Definition applyOp3 (v : vec3 S) (op : S -> S) : vec3 S := V3 (op (x3 v)) (op (y3 v)) (op (z3 v)).
(** src/detail/utils.hpp 29-33 *)
Definition applyOp4 (v : vec4 S) (op : S -> S) : vec4 S :=
  V4 (op (x4 v)) (op (y4 v)) (op (z4 v)) (op (w4 v)).

(** angle_and_trigonometry.cpp 14-17 *)
Definition degreesf (radians : S) : S := radians * slit 572957795130823%Z (-13)%Z.
(** angle_and_trigonometry.cpp 19-22 *)
Definition radiansf (degrees : S) : S := degrees * slit 1745329251994%Z (-14)%Z.

(** angle_and_trigonometry.cpp 29-32 *)
Definition cos_f (x : S) : S := applyOp_f x mcos.
(** angle_and_trigonometry.cpp 34-37: cos(vec2) *)
Definition cos2 (x : vec2 S) : vec2 S := applyOp2 x mcos.
(** angle_and_trigonometry.cpp 39-42: cos(vec3) *)
Definition cos3 (x : vec3 S) : vec3 S := applyOp3 x mcos.
(** angle_and_trigonometry.cpp 44-47: cos(vec4) *)
Definition cos4 (x : vec4 S) : vec4 S := applyOp4 x mcos.
(** angle_and_trigonometry.cpp 51-54 *)
Definition sin_f (x : S) : S := applyOp_f x msin.
(** angle_and_trigonometry.cpp 56-59: sin(vec2) *)
Definition sin2 (x : vec2 S) : vec2 S := applyOp2 x msin.
(** angle_and_trigonometry.cpp 61-64: sin(vec3) *)
Definition sin3 (x : vec3 S) : vec3 S := applyOp3 x msin.
(** angle_and_trigonometry.cpp 66-69: sin(vec4) *)
Definition sin4 (x : vec4 S) : vec4 S := applyOp4 x msin.
(** angle_and_trigonometry.cpp 74-77 *)
Definition acos_f (x : S) : S := applyOp_f x macos.
(** angle_and_trigonometry.cpp 79-82: acos(vec2) *)
Definition acos2 (x : vec2 S) : vec2 S := applyOp2 x macos.
(** angle_and_trigonometry.cpp 84-87: acos(vec3) *)
Definition acos3 (x : vec3 S) : vec3 S := applyOp3 x macos.
(** angle_and_trigonometry.cpp 89-92: acos(vec4) *)
Definition acos4 (x : vec4 S) : vec4 S := applyOp4 x macos.
(** angle_and_trigonometry.cpp 97-100 *)
Definition acosh_f (x : S) : S := applyOp_f x macosh.
(** angle_and_trigonometry.cpp 102-105: acosh(vec2) *)
Definition acosh2 (x : vec2 S) : vec2 S := applyOp2 x macosh.
(** angle_and_trigonometry.cpp 107-110: acosh(vec3) *)
Definition acosh3 (x : vec3 S) : vec3 S := applyOp3 x macosh.
(** angle_and_trigonometry.cpp 112-115: acosh(vec4) *)
Definition acosh4 (x : vec4 S) : vec4 S := applyOp4 x macosh.
(** angle_and_trigonometry.cpp 121-124 *)
Definition asin_f (x : S) : S := applyOp_f x masin.
(** angle_and_trigonometry.cpp 126-129: asin(vec2) *)
Definition asin2 (x : vec2 S) : vec2 S := applyOp2 x masin.
(** angle_and_trigonometry.cpp 131-134: asin(vec3) *)
Definition asin3 (x : vec3 S) : vec3 S := applyOp3 x masin.
(** angle_and_trigonometry.cpp 136-139: asin(vec4) *)
Definition asin4 (x : vec4 S) : vec4 S := applyOp4 x masin.
(** angle_and_trigonometry.cpp 143-146 *)
Definition asinh_f (x : S) : S := applyOp_f x masinh.
(** angle_and_trigonometry.cpp 148-151: asinh(vec2) *)
Definition asinh2 (x : vec2 S) : vec2 S := applyOp2 x masinh.
(** angle_and_trigonometry.cpp 153-156: asinh(vec3) *)
Definition asinh3 (x : vec3 S) : vec3 S := applyOp3 x masinh.
(** angle_and_trigonometry.cpp 158-161: asinh(vec4) *)
Definition asinh4 (x : vec4 S) : vec4 S := applyOp4 x masinh.
(** angle_and_trigonometry.cpp 187-190 *)
Definition atan_f (x : S) : S := applyOp_f x matan.
(** angle_and_trigonometry.cpp 192-195: atan(vec2) *)
Definition atan2 (x : vec2 S) : vec2 S := applyOp2 x matan.
(** angle_and_trigonometry.cpp 197-200: atan(vec3) *)
Definition atan3 (x : vec3 S) : vec3 S := applyOp3 x matan.
(** angle_and_trigonometry.cpp 202-205: atan(vec4) *)
Definition atan4 (x : vec4 S) : vec4 S := applyOp4 x matan.
(** angle_and_trigonometry.cpp 210-213 *)
Definition atanh_f (x : S) : S := applyOp_f x matanh.
(** angle_and_trigonometry.cpp 215-218: atanh(vec2) *)
Definition atanh2 (x : vec2 S) : vec2 S := applyOp2 x matanh.
(** angle_and_trigonometry.cpp 220-223: atanh(vec3) *)
Definition atanh3 (x : vec3 S) : vec3 S := applyOp3 x matanh.
(** angle_and_trigonometry.cpp 225-228: atanh(vec4) *)
Definition atanh4 (x : vec4 S) : vec4 S := applyOp4 x matanh.
(** angle_and_trigonometry.cpp 234-237 *)
Definition cosh_f (x : S) : S := applyOp_f x mcosh.
(** angle_and_trigonometry.cpp 239-242: cosh(vec2) *)
Definition cosh2 (x : vec2 S) : vec2 S := applyOp2 x mcosh.
(** angle_and_trigonometry.cpp 244-247: cosh(vec3) *)
Definition cosh3 (x : vec3 S) : vec3 S := applyOp3 x mcosh.
(** angle_and_trigonometry.cpp 249-252: cosh(vec4) *)
Definition cosh4 (x : vec4 S) : vec4 S := applyOp4 x mcosh.
(** angle_and_trigonometry.cpp 256-259 *)
Definition degrees_f (x : S) : S := applyOp_f x degreesf.
(** angle_and_trigonometry.cpp 261-264: degrees(vec2) *)
Definition degrees2 (x : vec2 S) : vec2 S := applyOp2 x degreesf.
(** angle_and_trigonometry.cpp 266-269: degrees(vec3) *)
Definition degrees3 (x : vec3 S) : vec3 S := applyOp3 x degreesf.
(** angle_and_trigonometry.cpp 271-274: degrees(vec4) *)
Definition degrees4 (x : vec4 S) : vec4 S := applyOp4 x degreesf.
(** angle_and_trigonometry.cpp 278-281 *)
Definition radians_f (x : S) : S := applyOp_f x radiansf.
(** angle_and_trigonometry.cpp 283-286: radians(vec2) *)
Definition radians2 (x : vec2 S) : vec2 S := applyOp2 x radiansf.
(** angle_and_trigonometry.cpp 288-291: radians(vec3) *)
Definition radians3 (x : vec3 S) : vec3 S := applyOp3 x radiansf.
(** angle_and_trigonometry.cpp 293-296: radians(vec4) *)
Definition radians4 (x : vec4 S) : vec4 S := applyOp4 x radiansf.
(** angle_and_trigonometry.cpp 301-304 *)
Definition sinh_f (x : S) : S := applyOp_f x msinh.
(** angle_and_trigonometry.cpp 306-309: sinh(vec2) *)
Definition sinh2 (x : vec2 S) : vec2 S := applyOp2 x msinh.
(** angle_and_trigonometry.cpp 311-314: sinh(vec3) *)
Definition sinh3 (x : vec3 S) : vec3 S := applyOp3 x msinh.
(** angle_and_trigonometry.cpp 316-319: sinh(vec4) *)
Definition sinh4 (x : vec4 S) : vec4 S := applyOp4 x msinh.
(** angle_and_trigonometry.cpp 325-328 *)
Definition tan_f (x : S) : S := applyOp_f x mtan.
(** angle_and_trigonometry.cpp 330-333: tan(vec2) *)
Definition tan2 (x : vec2 S) : vec2 S := applyOp2 x mtan.
(** angle_and_trigonometry.cpp 335-338: tan(vec3) *)
Definition tan3 (x : vec3 S) : vec3 S := applyOp3 x mtan.
(** angle_and_trigonometry.cpp 340-343: tan(vec4) *)
Definition tan4 (x : vec4 S) : vec4 S := applyOp4 x mtan.
(** angle_and_trigonometry.cpp 349-352 *)
Definition tanh_f (x : S) : S := applyOp_f x mtanh.
(** angle_and_trigonometry.cpp 354-357: tanh(vec2) *)
Definition tanh2 (x : vec2 S) : vec2 S := applyOp2 x mtanh.
(** angle_and_trigonometry.cpp 359-362: tanh(vec3) *)
Definition tanh3 (x : vec3 S) : vec3 S := applyOp3 x mtanh.
(** angle_and_trigonometry.cpp 364-367: tanh(vec4) *)
Definition tanh4 (x : vec4 S) : vec4 S := applyOp4 x mtanh.
(** angle_and_trigonometry.cpp 165-168: atan(float, float) *)
Definition atan2_f (y x : S) : S := matan2 y x.
(** angle_and_trigonometry.cpp 170-173: atan(vec2, vec2) *)
Definition atan2_2 (y x : vec2 S) : vec2 S :=
  V2 (matan2 (el2 y 0) (el2 x 0)) (matan2 (el2 y 1) (el2 x 1)).
(** angle_and_trigonometry.cpp 175-178: atan(vec3, vec3) *)
Definition atan2_3 (y x : vec3 S) : vec3 S :=
  V3 (matan2 (el3 y 0) (el3 x 0)) (matan2 (el3 y 1) (el3 x 1)) (matan2 (el3 y 2) (el3 x 2)).
(** angle_and_trigonometry.cpp 180-183: atan(vec4, vec4) *)
Definition atan2_4 (y x : vec4 S) : vec4 S :=
  V4 (matan2 (el4 y 0) (el4 x 0)) (matan2 (el4 y 1) (el4 x 1)) (matan2 (el4 y 2) (el4 x 2)) (matan2 (el4 y 3) (el4 x 3)).

End Trig.
