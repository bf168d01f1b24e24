(** * Properties: sRGB conversions in binary32 *)

From Coq Require Import ZArith Bool Reals List Lra Lia.
From Flocq Require Import Core IEEE754.BinarySingleNaN.
From Verif Require Import Scalar IEEE32 RealInst Types Outcome Spec SpecR SpecF32 SpecErr SpecOrd SpecDom SpecAcc SpecProj SpecColor SpecSrgb FloatBasics FloatOps
  ModelVec ModelCommon ModelExp ModelColor F32Tac RealTac NumLib PfSlerp.
From Verif Require Import PfSrgb.
Import ListNotations.
Local Open Scope R_scope.


(** convertSRGBToLinear is, channel by channel, within k + 11 half-ulps (relatively) of the standard decoding, where powf is accurate to k half-ulps. *)
Theorem C94_decode : forall (L : Libm) k, 0 <= k <= 16 -> pow_accurate L k ->
  (forall v, Forall2 (decoded k) (l3 v) (l3 (sRGBToLinear3 (F32 L) v))) /\
  (forall v, Forall2 (decoded k) (l3 (rgb4 (F32 L) v)) (l3 (rgb4 (F32 L) (sRGBToLinear4 (F32 L) v))) /\ w4 (sRGBToLinear4 (F32 L) v) = w4 v).
Proof. exact C94_decode_pf. Qed.
Print Assumptions C94_decode.

(** convertLinearToSRGB with the exponent 1/2.4 is within 1.1k + 5 half-ulps of 1 of the standard encoding of the colour clamped to [0, 1]. *)
Theorem C94_encode : forall (L : Libm) k g, 0 <= k <= 16 -> pow_accurate L k -> encoding_exponent g ->
  (forall v, Forall2 (encoded k) (l3 v) (l3 (linearToSRGB3_g (F32 L) v g))) /\
  (forall v, Forall2 (encoded k) (l3 (rgb4 (F32 L) v)) (l3 (rgb4 (F32 L) (linearToSRGB4_g (F32 L) v g))) /\ w4 (linearToSRGB4_g (F32 L) v g) = w4 v).
Proof. exact C94_encode_pf. Qed.
Print Assumptions C94_encode.

(** From sRGB to linear and back a channel in [0, 1] returns within 1.6k + 10 half-ulps of 1, the two thresholds included. *)
Theorem C94_roundtrip : forall (L : Libm) k g v, 0 <= k <= 16 -> pow_accurate L k -> encoding_exponent g ->
  Forall2 (returned k) (l3 v) (l3 (linearToSRGB3_g (F32 L) (sRGBToLinear3 (F32 L) v) g)).
Proof. exact C94_roundtrip_pf. Qed.
Print Assumptions C94_roundtrip.

(** Images with up to 65536 levels per channel survive: dividing by the largest level, decoding, encoding, multiplying and rounding gives back every level exactly. *)
Theorem C94_lossless : forall (L : Libm) k g m a b c, 0 <= k <= 16 -> pow_accurate L k -> encoding_exponent g ->
  (1 <= m <= 65535)%Z -> (0 <= a <= m)%Z -> (0 <= b <= m)%Z -> (0 <= c <= m)%Z ->
  let levels := V3 (f32_ofZ a) (f32_ofZ b) (f32_ofZ c) in
  let linear := sRGBToLinear3 (F32 L) (vec3_div_sc (F32 L) levels (f32_ofZ m)) in
  vals (l3 (round3 (F32 L) (vec3_mul_sc (F32 L) (linearToSRGB3_g (F32 L) linear g) (f32_ofZ m)))) = [IZR a; IZR b; IZR c].
Proof. exact C94_lossless_pf. Qed.
Print Assumptions C94_lossless.

(** The overload without exponent is within 12 half-ulps of 1 of its value in exact arithmetic, hence within 0.00101 of the standard encoding on [0.0031308, 1]. *)
Theorem C94_fast : forall (L : Libm) (v : vec3 f32), Forall2 (fun x c => between 0 1 x ->
    finite c /\ Rabs (b2r c - x3 (linearToSRGB3 RS (V3 (b2r x) 0 0))) <= 12 * ulp_half /\
    (0.0031308 <= b2r x -> Rabs (b2r c - srgb_encode (b2r x)) <= 0.00101)) (l3 v) (l3 (linearToSRGB3 (F32 L) v)).
Proof. exact C94_fast_pf. Qed.
Print Assumptions C94_fast.

(** a C library whose powf returns the nearest binary32 number meets the hypothesis with k = 1; the quotient 1.0f/2.4f is a valid exponent *)
Example C94_rounded_library : forall L0 : Libm, exists L, pow_accurate L 1 /\ l_sin L = l_sin L0.
Proof.
  intros L0. exists (mkLibm (l_cos L0) (l_sin L0) (l_tan L0) (l_acos L0) (l_asin L0) (l_atan L0) (l_atan2 L0)
    (l_cosh L0) (l_sinh L0) (l_tanh L0) (l_acosh L0) (l_asinh L0) (l_atanh L0) (fun x y => nearest (Rpower (b2r x) (b2r y))) (l_exp L0) (l_log L0) (l_log2 L0) (l_cbrt L0)).
  split; [|reflexivity]. intros x y [_ Hx] [_ Hy]. apply nearest_close. now apply nearest_pow.
Qed.
Example C94_exponent : encoding_exponent (Bdiv mode_NE (f32_lit 1 0) (f32_lit 24 (-1))).
Proof. split; [vm_compute; reflexivity|]. replace (b2r (Bdiv mode_NE (f32_lit 1 0) (f32_lit 24 (-1)))) with (13981013/33554432) by (vm_compute; lra). apply Rabs_le. unfold ulp_half. lra. Qed.
