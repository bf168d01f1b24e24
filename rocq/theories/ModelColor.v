(** * src/color_space.cpp

    [v.rgb] is the swizzle of components 0, 1, 2 and [v.a] is component 3. *)
From Coq Require Import ZArith Bool List.
From Verif Require Import Scalar Outcome Types ModelVec ModelCommon ModelQuat ModelExp.
Local Open Scope scalar_scope.

Section Color.
Variable S : Scalar.

(** include/zcm/vec4.hpp: the swizzle [rgb] *)
Definition rgb4 (v : vec4 S) : vec3 S := V3 (x4 v) (y4 v) (z4 v).

(** color_space.cpp 13-19: convertLinearToSRGB(vec3, float) *)
Definition linearToSRGB3_g (colorLinear : vec3 S) (Gamma : S) : vec3 S :=
  let ClampedColor := clamp3 S colorLinear (vec3_i S 0%Z) (vec3_i S 1%Z) in
  mix3_b S
    (vec3_sub_sc S (vec3_mul_sc S (pow3 S ClampedColor (vec3_f S Gamma)) (slit 1055%Z (-3)%Z))
                 (slit 55%Z (-3)%Z))
    (vec3_mul_sc S ClampedColor (slit 1292%Z (-2)%Z))
    (lessThan3 S ClampedColor (vec3_f S (slit 31308%Z (-7)%Z))).
(** color_space.cpp 8-11: convertLinearToSRGB(vec4, float) *)
Definition linearToSRGB4_g (ColorLinear : vec4 S) (Gamma : S) : vec4 S :=
  vec4_v3f S (linearToSRGB3_g (rgb4 ColorLinear) Gamma) (w4 ColorLinear).
(** color_space.cpp 21-28: convertLinearToSRGB(vec3) *)
Definition linearToSRGB3 (colorLinear : vec3 S) : vec3 S :=
  let S1 := sqrt3 S colorLinear in
  let S2 := sqrt3 S S1 in
  let S3 := sqrt3 S S2 in
  vec3_sub S
    (vec3_sub S
      (vec3_add S (sc_mul_vec3 S (slit 662002687%Z (-9)%Z) S1)
                  (sc_mul_vec3 S (slit 684122060%Z (-9)%Z) S2))
      (sc_mul_vec3 S (slit 323583601%Z (-9)%Z) S3))
    (sc_mul_vec3 S (slit 225411470%Z (-10)%Z) colorLinear).
(** color_space.cpp 30-33: convertLinearToSRGB(vec4) *)
Definition linearToSRGB4 (colorLinear : vec4 S) : vec4 S :=
  vec4_v3f S (linearToSRGB3 (rgb4 colorLinear)) (w4 colorLinear).
(** color_space.cpp 36-41: convertSRGBToLinear(vec3, float) *)
Definition sRGBToLinear3_g (ColorSRGB : vec3 S) (Gamma : S) : vec3 S :=
  mix3_b S
    (pow3 S (vec3_mul_sc S (vec3_add_sc S ColorSRGB (slit 55%Z (-3)%Z))
                         (slit 94786729857819905213270142180095%Z (-32)%Z))
            (vec3_f S Gamma))
    (vec3_mul_sc S ColorSRGB (slit 7739938080495356037151702786378%Z (-32)%Z))
    (lessThanEqual3 S ColorSRGB (vec3_f S (slit 4045%Z (-5)%Z))).
(** color_space.cpp 43-46: convertSRGBToLinear(vec4, float) *)
Definition sRGBToLinear4_g (ColorSRGB : vec4 S) (Gamma : S) : vec4 S :=
  vec4_v3f S (sRGBToLinear3_g (rgb4 ColorSRGB) Gamma) (w4 ColorSRGB).
(** color_space.cpp 48-51: convertSRGBToLinear(vec3) *)
Definition sRGBToLinear3 (ColorSRGB : vec3 S) : vec3 S :=
  sRGBToLinear3_g ColorSRGB (slit 24%Z (-1)%Z).
(** color_space.cpp 53-56: convertSRGBToLinear(vec4) *)
Definition sRGBToLinear4 (ColorSRGB : vec4 S) : vec4 S :=
  vec4_v3f S (sRGBToLinear3_g (rgb4 ColorSRGB) (slit 24%Z (-1)%Z)) (w4 ColorSRGB).

End Color.
