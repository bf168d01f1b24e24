(** * The text of src/hash.cpp, src/type_ptr.cpp and of the std::hash specialisations of include/zcm/hash.hpp

    Written by tools/transcribe/hash_ptr.py; the syntax is that of [CppHash.v]. *)
From Coq Require Import ZArith List String.
From Verif Require Import Cpp CppHash.
Import ListNotations.
Local Open Scope string_scope.
Local Open Scope Z_scope.

Definition hash_code : list hfun := [
  (* hash.cpp 17-23 *)
  HFun Nfloat_hash Tfloat "f" [HDecl Tuint "ui"; HMemcpy "ui" "f" (HSizeof Tfloat); HReturn (HCall Nhash (HVar "ui"))];
  (* hash.cpp 25-29 *)
  HFun Nhash Tfloat "f" [HAuto "h" (HCall Nfloat_hash (HVar "f")); HReturn (HBin HOr (HBin HShl (HNot (HVar "h")) (HBin HMul (HSizeof Tuint) (HInt 8))) (HVar "h"))];
  (* hash.cpp 31-36 *)
  HFun Nhash (Tcls Cvec2) "v" [HAuto "hx" (HCall Nfloat_hash (HFld (HVar "v") "x")); HAuto "hy" (HCall Nfloat_hash (HFld (HVar "v") "y")); HReturn (HBin HOr (HBin HShl (HVar "hx") (HBin HMul (HSizeof Tuint) (HInt 8))) (HVar "hy"))];
  (* hash.cpp 38-44 *)
  HFun Nhash (Tcls Cvec3) "v" [HAuto "hx" (HCall Nfloat_hash (HFld (HVar "v") "x")); HAuto "hy" (HCall Nfloat_hash (HFld (HVar "v") "y")); HAuto "hz" (HCall Nfloat_hash (HFld (HVar "v") "z")); HReturn (HBin HXor (HBin HOr (HBin HShl (HVar "hx") (HBin HMul (HSizeof Tuint) (HInt 8))) (HVar "hy")) (HBin HShl (HVar "hz") (HBin HMul (HSizeof Tuint) (HInt 4))))];
  (* hash.cpp 46-53 *)
  HFun Nhash (Tcls Cvec4) "v" [HAuto "hx" (HCall Nfloat_hash (HFld (HVar "v") "x")); HAuto "hy" (HCall Nfloat_hash (HFld (HVar "v") "y")); HAuto "hz" (HCall Nfloat_hash (HFld (HVar "v") "z")); HAuto "hw" (HCall Nfloat_hash (HFld (HVar "v") "w")); HReturn (HBin HXor (HBin HXor (HBin HOr (HBin HShl (HVar "hx") (HBin HMul (HSizeof Tuint) (HInt 8))) (HVar "hy")) (HBin HShl (HVar "hz") (HBin HMul (HSizeof Tuint) (HInt 4)))) (HVar "hw"))];
  (* hash.cpp 55-62 *)
  HFun Nhash (Tcls Cquat) "v" [HAuto "hx" (HCall Nfloat_hash (HFld (HVar "v") "x")); HAuto "hy" (HCall Nfloat_hash (HFld (HVar "v") "y")); HAuto "hz" (HCall Nfloat_hash (HFld (HVar "v") "z")); HAuto "hw" (HCall Nfloat_hash (HFld (HVar "v") "w")); HReturn (HBin HXor (HBin HXor (HBin HOr (HBin HShl (HVar "hx") (HBin HMul (HSizeof Tuint) (HInt 8))) (HVar "hy")) (HBin HShl (HVar "hz") (HBin HMul (HSizeof Tuint) (HInt 4)))) (HVar "hw"))];
  (* hash.cpp 64-67 *)
  HFun Nhash (Tcls Cmat2) "m" [HReturn (HBin HXor (HCall Nhash (HSub (HVar "m") (HInt 0))) (HCall Nhash (HSub (HVar "m") (HInt 1))))];
  (* hash.cpp 69-72 *)
  HFun Nhash (Tcls Cmat3) "m" [HReturn (HBin HXor (HBin HXor (HCall Nhash (HSub (HVar "m") (HInt 0))) (HCall Nhash (HSub (HVar "m") (HInt 1)))) (HCall Nhash (HSub (HVar "m") (HInt 2))))];
  (* hash.cpp 74-77 *)
  HFun Nhash (Tcls Cmat4) "m" [HReturn (HBin HXor (HBin HXor (HBin HXor (HCall Nhash (HSub (HVar "m") (HInt 0))) (HCall Nhash (HSub (HVar "m") (HInt 1)))) (HCall Nhash (HSub (HVar "m") (HInt 1)))) (HCall Nhash (HSub (HVar "m") (HInt 3))))];
  (* hash.cpp 79-82 *)
  HFun Nhash (Tcls Cbvec2) "b" [HReturn (HBin HXor (HCall Nhash (HFld (HVar "b") "x")) (HCall Nhash (HFld (HVar "b") "y")))];
  (* hash.cpp 84-87 *)
  HFun Nhash (Tcls Cbvec3) "b" [HReturn (HBin HXor (HBin HXor (HCall Nhash (HFld (HVar "b") "x")) (HCall Nhash (HFld (HVar "b") "y"))) (HCall Nhash (HFld (HVar "b") "z")))];
  (* hash.cpp 89-92 *)
  HFun Nhash (Tcls Cbvec4) "b" [HReturn (HBin HXor (HBin HXor (HBin HXor (HCall Nhash (HFld (HVar "b") "x")) (HCall Nhash (HFld (HVar "b") "y"))) (HCall Nhash (HFld (HVar "b") "z"))) (HCall Nhash (HFld (HVar "b") "w")))];
  (* hash.cpp 94-97 *)
  HFun Nhash (Tcls Civec2) "v" [HReturn (HBin HXor (HCall Nhash (HFld (HVar "v") "x")) (HCall Nhash (HFld (HVar "v") "y")))];
  (* hash.cpp 99-102 *)
  HFun Nhash (Tcls Civec3) "v" [HReturn (HBin HXor (HBin HXor (HCall Nhash (HFld (HVar "v") "x")) (HCall Nhash (HFld (HVar "v") "y"))) (HCall Nhash (HFld (HVar "v") "z")))];
  (* hash.cpp 104-107 *)
  HFun Nhash (Tcls Civec4) "v" [HReturn (HBin HXor (HBin HXor (HBin HXor (HCall Nhash (HFld (HVar "v") "x")) (HCall Nhash (HFld (HVar "v") "y"))) (HCall Nhash (HFld (HVar "v") "z"))) (HCall Nhash (HFld (HVar "v") "w")))];
  (* hash.cpp 109-112 *)
  HFun Nhash Tbool "x" [HReturn (HCond (HVar "x") (HULL 14946564255682567559) (HULL 9039655308336254491))];
  (* hash.cpp 114-117 *)
  HFun Nhash Tint "val" [HReturn (HBin HMul (HVar "val") (HULL 1273103906433186827))];
  (* hash.cpp 119-122 *)
  HFun Nhash Tuint "val" [HReturn (HBin HMul (HVar "val") (HULL 1273103906433186827))]
].
Definition std_hash_code : list hfun := [
  (* hash.hpp 46-51 *)
  HFun Nstd_hash (Tcls Cbvec2) "v" [HReturn (HCall Nhash (HVar "v"))];
  (* hash.hpp 55-60 *)
  HFun Nstd_hash (Tcls Cbvec3) "v" [HReturn (HCall Nhash (HVar "v"))];
  (* hash.hpp 64-69 *)
  HFun Nstd_hash (Tcls Cbvec4) "v" [HReturn (HCall Nhash (HVar "v"))];
  (* hash.hpp 73-78 *)
  HFun Nstd_hash (Tcls Civec2) "v" [HReturn (HCall Nhash (HVar "v"))];
  (* hash.hpp 82-87 *)
  HFun Nstd_hash (Tcls Civec3) "v" [HReturn (HCall Nhash (HVar "v"))];
  (* hash.hpp 91-96 *)
  HFun Nstd_hash (Tcls Civec4) "v" [HReturn (HCall Nhash (HVar "v"))];
  (* hash.hpp 100-105 *)
  HFun Nstd_hash (Tcls Cvec2) "v" [HReturn (HCall Nhash (HVar "v"))];
  (* hash.hpp 109-114 *)
  HFun Nstd_hash (Tcls Cvec3) "v" [HReturn (HCall Nhash (HVar "v"))];
  (* hash.hpp 118-123 *)
  HFun Nstd_hash (Tcls Cvec4) "v" [HReturn (HCall Nhash (HVar "v"))];
  (* hash.hpp 127-132 *)
  HFun Nstd_hash (Tcls Cquat) "v" [HReturn (HCall Nhash (HVar "v"))];
  (* hash.hpp 136-141 *)
  HFun Nstd_hash (Tcls Cmat2) "v" [HReturn (HCall Nhash (HVar "v"))];
  (* hash.hpp 145-150 *)
  HFun Nstd_hash (Tcls Cmat3) "v" [HReturn (HCall Nhash (HVar "v"))];
  (* hash.hpp 154-159 *)
  HFun Nstd_hash (Tcls Cmat4) "v" [HReturn (HCall Nhash (HVar "v"))]
].
Definition value_ptr_code : list hfun := [
  (* type_ptr.cpp 14-17 *)
  HFun Nvalue_ptr (Tcls Cbvec2) "val" [HReturn (HAddr (HFld (HVar "val") "x"))];
  (* type_ptr.cpp 19-22 *)
  HFun Nvalue_ptr (Tcls Cbvec3) "val" [HReturn (HAddr (HFld (HVar "val") "x"))];
  (* type_ptr.cpp 24-27 *)
  HFun Nvalue_ptr (Tcls Cbvec4) "val" [HReturn (HAddr (HFld (HVar "val") "x"))];
  (* type_ptr.cpp 29-32 *)
  HFun Nvalue_ptr (Tcls Cvec2) "val" [HReturn (HAddr (HSub (HVar "val") (HInt 0)))];
  (* type_ptr.cpp 34-37 *)
  HFun Nvalue_ptr (Tcls Cvec3) "val" [HReturn (HAddr (HSub (HVar "val") (HInt 0)))];
  (* type_ptr.cpp 39-42 *)
  HFun Nvalue_ptr (Tcls Cvec4) "val" [HReturn (HAddr (HSub (HVar "val") (HInt 0)))];
  (* type_ptr.cpp 44-47 *)
  HFun Nvalue_ptr (Tcls Cquat) "val" [HReturn (HAddr (HFld (HVar "val") "x"))];
  (* type_ptr.cpp 49-52 *)
  HFun Nvalue_ptr (Tcls Cmat2) "val" [HReturn (HAddr (HSub (HSub (HFld (HVar "val") "_columns") (HInt 0)) (HInt 0)))];
  (* type_ptr.cpp 54-57 *)
  HFun Nvalue_ptr (Tcls Cmat3) "val" [HReturn (HAddr (HSub (HSub (HFld (HVar "val") "_columns") (HInt 0)) (HInt 0)))];
  (* type_ptr.cpp 59-62 *)
  HFun Nvalue_ptr (Tcls Cmat4) "val" [HReturn (HAddr (HSub (HSub (HFld (HVar "val") "_columns") (HInt 0)) (HInt 0)))];
  (* type_ptr.cpp 67-70 *)
  HFun Nconst_value_ptr (Tcls Cbvec2) "val" [HReturn (HAddr (HFld (HVar "val") "x"))];
  (* type_ptr.cpp 72-75 *)
  HFun Nconst_value_ptr (Tcls Cbvec3) "val" [HReturn (HAddr (HFld (HVar "val") "x"))];
  (* type_ptr.cpp 77-80 *)
  HFun Nconst_value_ptr (Tcls Cbvec4) "val" [HReturn (HAddr (HFld (HVar "val") "x"))];
  (* type_ptr.cpp 82-85 *)
  HFun Nconst_value_ptr (Tcls Cvec2) "val" [HReturn (HAddr (HSub (HVar "val") (HInt 0)))];
  (* type_ptr.cpp 87-90 *)
  HFun Nconst_value_ptr (Tcls Cvec3) "val" [HReturn (HAddr (HSub (HVar "val") (HInt 0)))];
  (* type_ptr.cpp 92-95 *)
  HFun Nconst_value_ptr (Tcls Cvec4) "val" [HReturn (HAddr (HSub (HVar "val") (HInt 0)))];
  (* type_ptr.cpp 97-100 *)
  HFun Nconst_value_ptr (Tcls Cquat) "val" [HReturn (HAddr (HFld (HVar "val") "x"))];
  (* type_ptr.cpp 102-105 *)
  HFun Nconst_value_ptr (Tcls Cmat2) "val" [HReturn (HAddr (HSub (HSub (HFld (HVar "val") "_columns") (HInt 0)) (HInt 0)))];
  (* type_ptr.cpp 107-110 *)
  HFun Nconst_value_ptr (Tcls Cmat3) "val" [HReturn (HAddr (HSub (HSub (HFld (HVar "val") "_columns") (HInt 0)) (HInt 0)))];
  (* type_ptr.cpp 112-115 *)
  HFun Nconst_value_ptr (Tcls Cmat4) "val" [HReturn (HAddr (HSub (HSub (HFld (HVar "val") "_columns") (HInt 0)) (HInt 0)))]
].
