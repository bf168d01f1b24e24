(** * src/constants.cpp

    [epsilon] is 2^-23, whose decimal expansion is exact. *)
From Coq Require Import ZArith.
From Verif Require Import Scalar.

Section Constants.
Variable S : Scalar.

(** constants.cpp 4-7: std::numeric_limits<float>::epsilon() *)
Definition c_epsilon : S := slit 11920928955078125%Z (-23)%Z.
(** constants.cpp 9-12: 0.0f *)
Definition c_zero : S := slit 0%Z 0%Z.
(** constants.cpp 14-17: 1.0f *)
Definition c_one : S := slit 1%Z 0%Z.
(** constants.cpp 19-22: 3.14159265358979323846264338327950288f *)
Definition c_pi : S := slit 314159265358979323846264338327950288%Z (-35)%Z.
(** constants.cpp 24-27: 6.28318530717958647692528676655900576f *)
Definition c_two_pi : S := slit 628318530717958647692528676655900576%Z (-35)%Z.
(** constants.cpp 29-32: 1.772453850905516027f *)
Definition c_root_pi : S := slit 1772453850905516027%Z (-18)%Z.
(** constants.cpp 34-37: 1.57079632679489661923132169163975144f *)
Definition c_half_pi : S := slit 157079632679489661923132169163975144%Z (-35)%Z.
(** constants.cpp 39-42: 4.71238898038468985769396507491925432f *)
Definition c_three_over_two_pi : S := slit 471238898038468985769396507491925432%Z (-35)%Z.
(** constants.cpp 44-47: 0.785398163397448309615660845819875721f *)
Definition c_quarter_pi : S := slit 785398163397448309615660845819875721%Z (-36)%Z.
(** constants.cpp 49-52: 0.318309886183790671537767526745028724f *)
Definition c_one_over_pi : S := slit 318309886183790671537767526745028724%Z (-36)%Z.
(** constants.cpp 54-57: 0.159154943091895335768883763372514362f *)
Definition c_one_over_two_pi : S := slit 159154943091895335768883763372514362%Z (-36)%Z.
(** constants.cpp 59-62: 0.636619772367581343075535053490057448f *)
Definition c_two_over_pi : S := slit 636619772367581343075535053490057448%Z (-36)%Z.
(** constants.cpp 64-67: 1.273239544735162686151070106980114898f *)
Definition c_four_over_pi : S := slit 1273239544735162686151070106980114898%Z (-36)%Z.
(** constants.cpp 69-72: 1.12837916709551257389615890312154517f *)
Definition c_two_over_root_pi : S := slit 112837916709551257389615890312154517%Z (-35)%Z.
(** constants.cpp 74-77: 0.707106781186547524400844362104849039f *)
Definition c_one_over_root_two : S := slit 707106781186547524400844362104849039%Z (-36)%Z.
(** constants.cpp 79-82: 1.253314137315500251f *)
Definition c_root_half_pi : S := slit 1253314137315500251%Z (-18)%Z.
(** constants.cpp 84-87: 2.506628274631000502f *)
Definition c_root_two_pi : S := slit 2506628274631000502%Z (-18)%Z.
(** constants.cpp 89-92: 1.17741002251547469f *)
Definition c_root_ln_four : S := slit 117741002251547469%Z (-17)%Z.
(** constants.cpp 94-97: 2.71828182845904523536f *)
Definition c_e : S := slit 271828182845904523536%Z (-20)%Z.
(** constants.cpp 99-102: 0.577215664901532860606f *)
Definition c_euler : S := slit 577215664901532860606%Z (-21)%Z.
(** constants.cpp 104-107: 1.41421356237309504880168872420969808f *)
Definition c_root_two : S := slit 141421356237309504880168872420969808%Z (-35)%Z.
(** constants.cpp 109-112: 1.73205080756887729352744634150587236f *)
Definition c_root_three : S := slit 173205080756887729352744634150587236%Z (-35)%Z.
(** constants.cpp 114-117: 2.23606797749978969640917366873127623f *)
Definition c_root_five : S := slit 223606797749978969640917366873127623%Z (-35)%Z.
(** constants.cpp 119-122: 0.693147180559945309417232121458176568f *)
Definition c_ln_two : S := slit 693147180559945309417232121458176568%Z (-36)%Z.
(** constants.cpp 124-127: 2.30258509299404568401799145468436421f *)
Definition c_ln_ten : S := slit 230258509299404568401799145468436421%Z (-35)%Z.
(** constants.cpp 129-132: -0.3665129205816643f *)
Definition c_ln_ln_two : S := sneg (slit 3665129205816643%Z (-16)%Z).
(** constants.cpp 134-137: 0.3333333333333333333333333333333333333333f *)
Definition c_third : S := slit 3333333333333333333333333333333333333333%Z (-40)%Z.
(** constants.cpp 139-142: 0.666666666666666666666666666666666666667f *)
Definition c_two_thirds : S := slit 666666666666666666666666666666666666667%Z (-39)%Z.
(** constants.cpp 144-147: 1.61803398874989484820458683436563811f *)
Definition c_golden_ratio : S := slit 161803398874989484820458683436563811%Z (-35)%Z.

End Constants.
