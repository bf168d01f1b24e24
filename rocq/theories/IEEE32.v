(** * The binary32 instance

    [F32 L] is IEEE 754 binary32 arithmetic as formalised by Flocq
    ([binary_float 24 128], one NaN), rounding to nearest even.  The functions
    of the C math library that IEEE 754 does not pin down are the arbitrary
    record [L]. *)
From Coq Require Import ZArith Bool Reals.
From Flocq Require Import Core IEEE754.BinarySingleNaN.
From Verif Require Import Scalar.

Definition f32 : Type := binary_float 24 128.

Global Instance f32_prec_gt_0 : FLX.Prec_gt_0 24 := eq_refl.
Global Instance f32_prec_lt_emax : Prec_lt_emax 24 128 := eq_refl.

(** An implementation of the inexact part of <cmath>. *)
Record Libm : Type := mkLibm {
  l_cos : f32 -> f32;  l_sin : f32 -> f32;  l_tan : f32 -> f32;
  l_acos : f32 -> f32; l_asin : f32 -> f32; l_atan : f32 -> f32;
  l_atan2 : f32 -> f32 -> f32;
  l_cosh : f32 -> f32; l_sinh : f32 -> f32; l_tanh : f32 -> f32;
  l_acosh : f32 -> f32; l_asinh : f32 -> f32; l_atanh : f32 -> f32;
  l_pow : f32 -> f32 -> f32;
  l_exp : f32 -> f32; l_log : f32 -> f32; l_log2 : f32 -> f32; l_cbrt : f32 -> f32
}.

(** Correctly rounded decimal literal [m * 10^e]: one rounding of the exact
    rational number. *)
Definition f32_lit (m e : Z) : f32 :=
  match m, e with
  | Z0, _ => B754_zero false
  | Zpos p, Zneg k =>
      SF2B _ (proj1 (Bdiv_correct_aux 24 128 _ _ mode_NE false p 0 false (Pos.pow 10 k) 0))
  | Zneg p, Zneg k =>
      SF2B _ (proj1 (Bdiv_correct_aux 24 128 _ _ mode_NE true p 0 false (Pos.pow 10 k) 0))
  | _, _ => binary_normalize 24 128 _ _ mode_NE (m * 10 ^ e) 0 false
  end.

(** [static_cast<float>(int)]. *)
Definition f32_ofZ (z : Z) : f32 := binary_normalize 24 128 _ _ mode_NE z 0 false.

Definition f32_isinf (x : f32) : bool :=
  match x with B754_infinity _ => true | _ => false end.

Definition F32 (L : Libm) : Scalar := {|
  car := f32;
  slit := f32_lit;
  sofZ := f32_ofZ;
  sadd := Bplus mode_NE;
  ssub := Bminus mode_NE;
  smul := Bmult mode_NE;
  sdiv := Bdiv mode_NE;
  sneg := Bopp;
  slt := Bltb;
  sle := Bleb;
  seq := Beqb;
  sabs := Babs;
  ssqrt := Bsqrt mode_NE;
  sfma := Bfma mode_NE;
  sfloor := Bnearbyint mode_DN;
  sceil := Bnearbyint mode_UP;
  strunc := Bnearbyint mode_ZR;
  sround := Bnearbyint mode_NA;
  snearbyint := Bnearbyint mode_NE;
  sisnan := is_nan;
  sisinf := f32_isinf;
  mcos := l_cos L; msin := l_sin L; mtan := l_tan L;
  macos := l_acos L; masin := l_asin L; matan := l_atan L; matan2 := l_atan2 L;
  mcosh := l_cosh L; msinh := l_sinh L; mtanh := l_tanh L;
  macosh := l_acosh L; masinh := l_asinh L; matanh := l_atanh L;
  mpow := l_pow L; mexp := l_exp L; mlog := l_log L; mlog2 := l_log2 L; mcbrt := l_cbrt L
|}.

(** A concrete libm, used only in the examples that show hypotheses can be met. *)
Definition L0 : Libm :=
  let id1 := fun x : f32 => x in let fst2 := fun x _ : f32 => x in
  mkLibm id1 id1 id1 id1 id1 id1 fst2 id1 id1 id1 id1 id1 id1 fst2 id1 id1 id1 id1.
