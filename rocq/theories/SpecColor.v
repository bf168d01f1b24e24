(** * The sRGB transfer functions (IEC 61966-2-1), on one channel *)
From Coq Require Import Reals.
From Flocq Require Import Core.
Local Open Scope R_scope.

Definition srgb_encode (x : R) : R := if Rlt_bool x 0.0031308 then 12.92 * x else 1.055 * Rpower x (/ 2.4) - 0.055.
Definition srgb_decode (s : R) : R := if Rle_bool s 0.04045 then s / 12.92 else Rpower ((s + 0.055) / 1.055) 2.4.
