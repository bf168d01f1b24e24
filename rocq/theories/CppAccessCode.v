(** * The text of the accessor templates and of the unions of the vector types

    Written by tools/transcribe/accessors.py; the syntax is that of [CppAccess.v]. *)
From Coq Require Import List String.
From Verif Require Import CppAccess.
Import ListNotations.
Local Open Scope string_scope.

Definition accessor_code : list aclass := [
  (* vec2_access.hpp 11-48 *)
  Class "scalar_accessor_2" [PType "T"; PInt "index"] None (Some ("T", "_data", 2))
    [Member None (Ncompound AoAdd) [("T", "s")] [ACompound AoAdd (AIdx (AVar "_data") (AVar "index")) (AVar "s")];
     Member None (Ncompound AoSub) [("T", "s")] [ACompound AoSub (AIdx (AVar "_data") (AVar "index")) (AVar "s")];
     Member None (Ncompound AoMul) [("T", "s")] [ACompound AoMul (AIdx (AVar "_data") (AVar "index")) (AVar "s")];
     Member None (Ncompound AoDiv) [("T", "s")] [ACompound AoDiv (AIdx (AVar "_data") (AVar "index")) (AVar "s")];
     Member None Nassign [("T", "s")] [AAssign (AIdx (AVar "_data") (AVar "index")) (AVar "s")];
     Member (Some ("T", true)) (Ninc false) [] [AReturn (APre false (AIdx (AVar "_data") (AVar "index")))];
     Member (Some ("T", false)) (Ninc false) [("int", "")] [AReturn (APost false (AIdx (AVar "_data") (AVar "index")))];
     Member (Some ("T", true)) (Ninc true) [] [AReturn (APre true (AIdx (AVar "_data") (AVar "index")))];
     Member (Some ("T", false)) (Ninc true) [("int", "")] [AReturn (APost true (AIdx (AVar "_data") (AVar "index")))];
     Member None (Nconv "T") [] [AReturn (AIdx (AVar "_data") (AVar "index"))]];
  (* vec2_access.hpp 58-79 *)
  Class "scalar_accessor_2i" [PType "T"; PInt "index"] (Some ("scalar_accessor_2", ["T"; "index"])) None
    [Member None (Ncompound AoRem) [("T", "s")] [ACompound AoRem (AIdx (AQual "scalar_accessor_2" ["T"; "index"] "_data") (AVar "index")) (AVar "s")];
     Member None (Ncompound AoOr) [("T", "s")] [ACompound AoOr (AIdx (AQual "scalar_accessor_2" ["T"; "index"] "_data") (AVar "index")) (AVar "s")];
     Member None (Ncompound AoAnd) [("T", "s")] [ACompound AoAnd (AIdx (AQual "scalar_accessor_2" ["T"; "index"] "_data") (AVar "index")) (AVar "s")];
     Member None (Ncompound AoXor) [("T", "s")] [ACompound AoXor (AIdx (AQual "scalar_accessor_2" ["T"; "index"] "_data") (AVar "index")) (AVar "s")];
     Member None (Ncompound AoShl) [("T", "s")] [ACompound AoShl (AIdx (AQual "scalar_accessor_2" ["T"; "index"] "_data") (AVar "index")) (AVar "s")];
     Member None (Ncompound AoShr) [("T", "s")] [ACompound AoShr (AIdx (AQual "scalar_accessor_2" ["T"; "index"] "_data") (AVar "index")) (AVar "s")]];
  (* vec2_access.hpp 127-135 *)
  Class "shuffle_accessor_2" [PType "T"; PType "V"; PPack "indices"] None (Some ("T", "_data", 2))
    [Member None (Nconv "V") [] [AReturn (APack "V" (AIdx (AVar "_data") (AVar "indices")))]];
  (* vec3_access.hpp 13-48 *)
  Class "scalar_accessor_3" [PType "T"; PInt "index"] None (Some ("T", "_data", 3))
    [Member None (Ncompound AoAdd) [("T", "s")] [ACompound AoAdd (AIdx (AVar "_data") (AVar "index")) (AVar "s")];
     Member None (Ncompound AoSub) [("T", "s")] [ACompound AoSub (AIdx (AVar "_data") (AVar "index")) (AVar "s")];
     Member None (Ncompound AoMul) [("T", "s")] [ACompound AoMul (AIdx (AVar "_data") (AVar "index")) (AVar "s")];
     Member None (Ncompound AoDiv) [("T", "s")] [ACompound AoDiv (AIdx (AVar "_data") (AVar "index")) (AVar "s")];
     Member None Nassign [("T", "s")] [AAssign (AIdx (AVar "_data") (AVar "index")) (AVar "s")];
     Member (Some ("T", true)) (Ninc false) [] [AReturn (APre false (AIdx (AVar "_data") (AVar "index")))];
     Member (Some ("T", false)) (Ninc false) [("int", "")] [AReturn (APost false (AIdx (AVar "_data") (AVar "index")))];
     Member (Some ("T", true)) (Ninc true) [] [AReturn (APre true (AIdx (AVar "_data") (AVar "index")))];
     Member (Some ("T", false)) (Ninc true) [("int", "")] [AReturn (APost true (AIdx (AVar "_data") (AVar "index")))];
     Member None (Nconv "T") [] [AReturn (AIdx (AVar "_data") (AVar "index"))]];
  (* vec3_access.hpp 58-79 *)
  Class "scalar_accessor_3i" [PType "T"; PInt "index"] (Some ("scalar_accessor_3", ["T"; "index"])) None
    [Member None (Ncompound AoRem) [("T", "s")] [ACompound AoRem (AIdx (AQual "scalar_accessor_3" ["T"; "index"] "_data") (AVar "index")) (AVar "s")];
     Member None (Ncompound AoOr) [("T", "s")] [ACompound AoOr (AIdx (AQual "scalar_accessor_3" ["T"; "index"] "_data") (AVar "index")) (AVar "s")];
     Member None (Ncompound AoAnd) [("T", "s")] [ACompound AoAnd (AIdx (AQual "scalar_accessor_3" ["T"; "index"] "_data") (AVar "index")) (AVar "s")];
     Member None (Ncompound AoXor) [("T", "s")] [ACompound AoXor (AIdx (AQual "scalar_accessor_3" ["T"; "index"] "_data") (AVar "index")) (AVar "s")];
     Member None (Ncompound AoShl) [("T", "s")] [ACompound AoShl (AIdx (AQual "scalar_accessor_3" ["T"; "index"] "_data") (AVar "index")) (AVar "s")];
     Member None (Ncompound AoShr) [("T", "s")] [ACompound AoShr (AIdx (AQual "scalar_accessor_3" ["T"; "index"] "_data") (AVar "index")) (AVar "s")]];
  (* vec3_access.hpp 134-142 *)
  Class "shuffle_accessor_3" [PType "T"; PType "V"; PPack "indices"] None (Some ("T", "_data", 3))
    [Member None (Nconv "V") [] [AReturn (APack "V" (AIdx (AVar "_data") (AVar "indices")))]];
  (* vec4_access.hpp 15-50 *)
  Class "scalar_accessor_4" [PType "T"; PInt "index"] None (Some ("T", "_data", 4))
    [Member None (Ncompound AoAdd) [("T", "s")] [ACompound AoAdd (AIdx (AVar "_data") (AVar "index")) (AVar "s")];
     Member None (Ncompound AoSub) [("T", "s")] [ACompound AoSub (AIdx (AVar "_data") (AVar "index")) (AVar "s")];
     Member None (Ncompound AoMul) [("T", "s")] [ACompound AoMul (AIdx (AVar "_data") (AVar "index")) (AVar "s")];
     Member None (Ncompound AoDiv) [("T", "s")] [ACompound AoDiv (AIdx (AVar "_data") (AVar "index")) (AVar "s")];
     Member None Nassign [("T", "s")] [AAssign (AIdx (AVar "_data") (AVar "index")) (AVar "s")];
     Member (Some ("T", true)) (Ninc false) [] [AReturn (APre false (AIdx (AVar "_data") (AVar "index")))];
     Member (Some ("T", false)) (Ninc false) [("int", "")] [AReturn (APost false (AIdx (AVar "_data") (AVar "index")))];
     Member (Some ("T", true)) (Ninc true) [] [AReturn (APre true (AIdx (AVar "_data") (AVar "index")))];
     Member (Some ("T", false)) (Ninc true) [("int", "")] [AReturn (APost true (AIdx (AVar "_data") (AVar "index")))];
     Member None (Nconv "T") [] [AReturn (AIdx (AVar "_data") (AVar "index"))]];
  (* vec4_access.hpp 59-80 *)
  Class "scalar_accessor_4i" [PType "T"; PInt "index"] (Some ("scalar_accessor_4", ["T"; "index"])) None
    [Member None (Ncompound AoRem) [("T", "s")] [ACompound AoRem (AIdx (AQual "scalar_accessor_4" ["T"; "index"] "_data") (AVar "index")) (AVar "s")];
     Member None (Ncompound AoOr) [("T", "s")] [ACompound AoOr (AIdx (AQual "scalar_accessor_4" ["T"; "index"] "_data") (AVar "index")) (AVar "s")];
     Member None (Ncompound AoAnd) [("T", "s")] [ACompound AoAnd (AIdx (AQual "scalar_accessor_4" ["T"; "index"] "_data") (AVar "index")) (AVar "s")];
     Member None (Ncompound AoXor) [("T", "s")] [ACompound AoXor (AIdx (AQual "scalar_accessor_4" ["T"; "index"] "_data") (AVar "index")) (AVar "s")];
     Member None (Ncompound AoShl) [("T", "s")] [ACompound AoShl (AIdx (AQual "scalar_accessor_4" ["T"; "index"] "_data") (AVar "index")) (AVar "s")];
     Member None (Ncompound AoShr) [("T", "s")] [ACompound AoShr (AIdx (AQual "scalar_accessor_4" ["T"; "index"] "_data") (AVar "index")) (AVar "s")]];
  (* vec4_access.hpp 138-145 *)
  Class "shuffle_accessor_4" [PType "T"; PType "V"; PPack "indices"] None (Some ("T", "_data", 4))
    [Member None (Nconv "V") [] [AReturn (APack "V" (AIdx (AVar "_data") (AVar "indices")))]]
].
Definition format_code : list aformat := [
  (* vec2_access.hpp 51-55 *)
  Format [PType "T"; PInt "index"] "T" "scalar_accessor_2" ["T"; "index"] "T";
  (* vec2_access.hpp 81-85 *)
  Format [PType "T"; PInt "index"] "T" "scalar_accessor_2i" ["T"; "index"] "T";
  (* vec2_access.hpp 137-141 *)
  Format [PType "T"; PType "V"; PPack "indices"] "V" "shuffle_accessor_2" ["T"; "V"; "indices"] "V";
  (* vec3_access.hpp 51-55 *)
  Format [PType "T"; PInt "index"] "T" "scalar_accessor_3" ["T"; "index"] "T";
  (* vec3_access.hpp 82-86 *)
  Format [PType "T"; PInt "index"] "T" "scalar_accessor_3i" ["T"; "index"] "T";
  (* vec3_access.hpp 144-148 *)
  Format [PType "T"; PType "V"; PPack "indices"] "V" "shuffle_accessor_3" ["T"; "V"; "indices"] "V";
  (* vec4_access.hpp 52-56 *)
  Format [PType "T"; PInt "index"] "T" "scalar_accessor_4" ["T"; "index"] "T";
  (* vec4_access.hpp 82-86 *)
  Format [PType "T"; PInt "index"] "T" "scalar_accessor_4i" ["T"; "index"] "T";
  (* vec4_access.hpp 147-151 *)
  Format [PType "T"; PType "V"; PPack "indices"] "V" "shuffle_accessor_4" ["T"; "V"; "indices"] "V"
].
(* vec2.hpp 38-48 *)
Definition vec2_union : aunion := Union "vec2" "float" 2 [
  UM "scalar_accessor_2" [TTy "float"; TIx 0] ["x"; "r"; "s"];
  UM "scalar_accessor_2" [TTy "float"; TIx 1] ["y"; "g"; "t"];
  UM "shuffle_accessor_2" [TTy "float"; TTy "vec2"; TIx 0; TIx 0] ["xx"; "rr"; "ss"];
  UM "shuffle_accessor_2" [TTy "float"; TTy "vec2"; TIx 1; TIx 0] ["yx"; "gr"; "ts"];
  UM "shuffle_accessor_2" [TTy "float"; TTy "vec2"; TIx 0; TIx 1] ["xy"; "rg"; "st"];
  UM "shuffle_accessor_2" [TTy "float"; TTy "vec2"; TIx 1; TIx 1] ["yy"; "gg"; "tt"]].
(* vec3.hpp 41-86 *)
Definition vec3_union : aunion := Union "vec3" "float" 3 [
  UM "scalar_accessor_3" [TTy "float"; TIx 0] ["x"; "r"; "s"];
  UM "scalar_accessor_3" [TTy "float"; TIx 1] ["y"; "g"; "t"];
  UM "scalar_accessor_3" [TTy "float"; TIx 2] ["z"; "b"; "p"];
  UM "shuffle_accessor_3" [TTy "float"; TTy "vec2"; TIx 0; TIx 0] ["xx"; "rr"; "ss"];
  UM "shuffle_accessor_3" [TTy "float"; TTy "vec2"; TIx 1; TIx 0] ["yx"; "gr"; "ts"];
  UM "shuffle_accessor_3" [TTy "float"; TTy "vec2"; TIx 2; TIx 0] ["zx"; "br"; "ps"];
  UM "shuffle_accessor_3" [TTy "float"; TTy "vec2"; TIx 0; TIx 1] ["xy"; "rg"; "st"];
  UM "shuffle_accessor_3" [TTy "float"; TTy "vec2"; TIx 1; TIx 1] ["yy"; "gg"; "tt"];
  UM "shuffle_accessor_3" [TTy "float"; TTy "vec2"; TIx 2; TIx 1] ["zy"; "bg"; "pt"];
  UM "shuffle_accessor_3" [TTy "float"; TTy "vec2"; TIx 0; TIx 2] ["xz"; "rb"; "sp"];
  UM "shuffle_accessor_3" [TTy "float"; TTy "vec2"; TIx 1; TIx 2] ["yz"; "gb"; "tp"];
  UM "shuffle_accessor_3" [TTy "float"; TTy "vec2"; TIx 2; TIx 2] ["zz"; "bb"; "pp"];
  UM "shuffle_accessor_3" [TTy "float"; TTy "vec3"; TIx 0; TIx 0; TIx 0] ["xxx"; "rrr"; "sss"];
  UM "shuffle_accessor_3" [TTy "float"; TTy "vec3"; TIx 1; TIx 0; TIx 0] ["yxx"; "grr"; "tss"];
  UM "shuffle_accessor_3" [TTy "float"; TTy "vec3"; TIx 2; TIx 0; TIx 0] ["zxx"; "brr"; "pss"];
  UM "shuffle_accessor_3" [TTy "float"; TTy "vec3"; TIx 0; TIx 1; TIx 0] ["xyx"; "rgr"; "sts"];
  UM "shuffle_accessor_3" [TTy "float"; TTy "vec3"; TIx 1; TIx 1; TIx 0] ["yyx"; "ggr"; "tts"];
  UM "shuffle_accessor_3" [TTy "float"; TTy "vec3"; TIx 2; TIx 1; TIx 0] ["zyx"; "bgr"; "pts"];
  UM "shuffle_accessor_3" [TTy "float"; TTy "vec3"; TIx 0; TIx 2; TIx 0] ["xzx"; "rbr"; "sps"];
  UM "shuffle_accessor_3" [TTy "float"; TTy "vec3"; TIx 1; TIx 2; TIx 0] ["yzx"; "gbr"; "tps"];
  UM "shuffle_accessor_3" [TTy "float"; TTy "vec3"; TIx 2; TIx 2; TIx 0] ["zzx"; "bbr"; "pps"];
  UM "shuffle_accessor_3" [TTy "float"; TTy "vec3"; TIx 0; TIx 0; TIx 1] ["xxy"; "rrg"; "sst"];
  UM "shuffle_accessor_3" [TTy "float"; TTy "vec3"; TIx 1; TIx 0; TIx 1] ["yxy"; "grg"; "tst"];
  UM "shuffle_accessor_3" [TTy "float"; TTy "vec3"; TIx 2; TIx 0; TIx 1] ["zxy"; "brg"; "pst"];
  UM "shuffle_accessor_3" [TTy "float"; TTy "vec3"; TIx 0; TIx 1; TIx 1] ["xyy"; "rgg"; "stt"];
  UM "shuffle_accessor_3" [TTy "float"; TTy "vec3"; TIx 1; TIx 1; TIx 1] ["yyy"; "ggg"; "ttt"];
  UM "shuffle_accessor_3" [TTy "float"; TTy "vec3"; TIx 2; TIx 1; TIx 1] ["zyy"; "bgg"; "ptt"];
  UM "shuffle_accessor_3" [TTy "float"; TTy "vec3"; TIx 0; TIx 2; TIx 1] ["xzy"; "rbg"; "spt"];
  UM "shuffle_accessor_3" [TTy "float"; TTy "vec3"; TIx 1; TIx 2; TIx 1] ["yzy"; "gbg"; "tpt"];
  UM "shuffle_accessor_3" [TTy "float"; TTy "vec3"; TIx 2; TIx 2; TIx 1] ["zzy"; "bbg"; "ppt"];
  UM "shuffle_accessor_3" [TTy "float"; TTy "vec3"; TIx 0; TIx 0; TIx 2] ["xxz"; "rrb"; "ssp"];
  UM "shuffle_accessor_3" [TTy "float"; TTy "vec3"; TIx 1; TIx 0; TIx 2] ["yxz"; "grb"; "tsp"];
  UM "shuffle_accessor_3" [TTy "float"; TTy "vec3"; TIx 2; TIx 0; TIx 2] ["zxz"; "brb"; "psp"];
  UM "shuffle_accessor_3" [TTy "float"; TTy "vec3"; TIx 0; TIx 1; TIx 2] ["xyz"; "rgb"; "stp"];
  UM "shuffle_accessor_3" [TTy "float"; TTy "vec3"; TIx 1; TIx 1; TIx 2] ["yyz"; "ggb"; "ttp"];
  UM "shuffle_accessor_3" [TTy "float"; TTy "vec3"; TIx 2; TIx 1; TIx 2] ["zyz"; "bgb"; "ptp"];
  UM "shuffle_accessor_3" [TTy "float"; TTy "vec3"; TIx 0; TIx 2; TIx 2] ["xzz"; "rbb"; "spp"];
  UM "shuffle_accessor_3" [TTy "float"; TTy "vec3"; TIx 1; TIx 2; TIx 2] ["yzz"; "gbb"; "tpp"];
  UM "shuffle_accessor_3" [TTy "float"; TTy "vec3"; TIx 2; TIx 2; TIx 2] ["zzz"; "bbb"; "ppp"]].
(* vec4.hpp 48-396 *)
Definition vec4_union : aunion := Union "vec4" "float" 4 [
  UM "scalar_accessor_4" [TTy "float"; TIx 0] ["x"; "r"; "s"];
  UM "scalar_accessor_4" [TTy "float"; TIx 1] ["y"; "g"; "t"];
  UM "scalar_accessor_4" [TTy "float"; TIx 2] ["z"; "b"; "p"];
  UM "scalar_accessor_4" [TTy "float"; TIx 3] ["w"; "a"; "q"];
  UM "shuffle_accessor_4" [TTy "float"; TTy "vec2"; TIx 0; TIx 0] ["xx"; "rr"; "ss"];
  UM "shuffle_accessor_4" [TTy "float"; TTy "vec2"; TIx 1; TIx 0] ["yx"; "gr"; "ts"];
  UM "shuffle_accessor_4" [TTy "float"; TTy "vec2"; TIx 2; TIx 0] ["zx"; "br"; "ps"];
  UM "shuffle_accessor_4" [TTy "float"; TTy "vec2"; TIx 3; TIx 0] ["wx"; "ar"; "qs"];
  UM "shuffle_accessor_4" [TTy "float"; TTy "vec2"; TIx 0; TIx 1] ["xy"; "rg"; "st"];
  UM "shuffle_accessor_4" [TTy "float"; TTy "vec2"; TIx 1; TIx 1] ["yy"; "gg"; "tt"];
  UM "shuffle_accessor_4" [TTy "float"; TTy "vec2"; TIx 2; TIx 1] ["zy"; "bg"; "pt"];
  UM "shuffle_accessor_4" [TTy "float"; TTy "vec2"; TIx 3; TIx 1] ["wy"; "ag"; "qt"];
  UM "shuffle_accessor_4" [TTy "float"; TTy "vec2"; TIx 0; TIx 2] ["xz"; "rb"; "sp"];
  UM "shuffle_accessor_4" [TTy "float"; TTy "vec2"; TIx 1; TIx 2] ["yz"; "gb"; "tp"];
  UM "shuffle_accessor_4" [TTy "float"; TTy "vec2"; TIx 2; TIx 2] ["zz"; "bb"; "pp"];
  UM "shuffle_accessor_4" [TTy "float"; TTy "vec2"; TIx 3; TIx 2] ["wz"; "ab"; "qp"];
  UM "shuffle_accessor_4" [TTy "float"; TTy "vec2"; TIx 0; TIx 3] ["xw"; "ra"; "sq"];
  UM "shuffle_accessor_4" [TTy "float"; TTy "vec2"; TIx 1; TIx 3] ["yw"; "ga"; "tq"];
  UM "shuffle_accessor_4" [TTy "float"; TTy "vec2"; TIx 2; TIx 3] ["zw"; "ba"; "pq"];
  UM "shuffle_accessor_4" [TTy "float"; TTy "vec2"; TIx 3; TIx 3] ["ww"; "aa"; "qq"];
  UM "shuffle_accessor_4" [TTy "float"; TTy "vec3"; TIx 0; TIx 0; TIx 0] ["xxx"; "rrr"; "sss"];
  UM "shuffle_accessor_4" [TTy "float"; TTy "vec3"; TIx 1; TIx 0; TIx 0] ["yxx"; "grr"; "tss"];
  UM "shuffle_accessor_4" [TTy "float"; TTy "vec3"; TIx 2; TIx 0; TIx 0] ["zxx"; "brr"; "pss"];
  UM "shuffle_accessor_4" [TTy "float"; TTy "vec3"; TIx 3; TIx 0; TIx 0] ["wxx"; "arr"; "qss"];
  UM "shuffle_accessor_4" [TTy "float"; TTy "vec3"; TIx 0; TIx 1; TIx 0] ["xyx"; "rgr"; "sts"];
  UM "shuffle_accessor_4" [TTy "float"; TTy "vec3"; TIx 1; TIx 1; TIx 0] ["yyx"; "ggr"; "tts"];
  UM "shuffle_accessor_4" [TTy "float"; TTy "vec3"; TIx 2; TIx 1; TIx 0] ["zyx"; "bgr"; "pts"];
  UM "shuffle_accessor_4" [TTy "float"; TTy "vec3"; TIx 3; TIx 1; TIx 0] ["wyx"; "agr"; "qts"];
  UM "shuffle_accessor_4" [TTy "float"; TTy "vec3"; TIx 0; TIx 2; TIx 0] ["xzx"; "rbr"; "sps"];
  UM "shuffle_accessor_4" [TTy "float"; TTy "vec3"; TIx 1; TIx 2; TIx 0] ["yzx"; "gbr"; "tps"];
  UM "shuffle_accessor_4" [TTy "float"; TTy "vec3"; TIx 2; TIx 2; TIx 0] ["zzx"; "bbr"; "pps"];
  UM "shuffle_accessor_4" [TTy "float"; TTy "vec3"; TIx 3; TIx 2; TIx 0] ["wzx"; "abr"; "qps"];
  UM "shuffle_accessor_4" [TTy "float"; TTy "vec3"; TIx 0; TIx 3; TIx 0] ["xwx"; "rar"; "sqs"];
  UM "shuffle_accessor_4" [TTy "float"; TTy "vec3"; TIx 1; TIx 3; TIx 0] ["ywx"; "gar"; "tqs"];
  UM "shuffle_accessor_4" [TTy "float"; TTy "vec3"; TIx 2; TIx 3; TIx 0] ["zwx"; "bar"; "pqs"];
  UM "shuffle_accessor_4" [TTy "float"; TTy "vec3"; TIx 3; TIx 3; TIx 0] ["wwx"; "aar"; "qqs"];
  UM "shuffle_accessor_4" [TTy "float"; TTy "vec3"; TIx 0; TIx 0; TIx 1] ["xxy"; "rrg"; "sst"];
  UM "shuffle_accessor_4" [TTy "float"; TTy "vec3"; TIx 1; TIx 0; TIx 1] ["yxy"; "grg"; "tst"];
  UM "shuffle_accessor_4" [TTy "float"; TTy "vec3"; TIx 2; TIx 0; TIx 1] ["zxy"; "brg"; "pst"];
  UM "shuffle_accessor_4" [TTy "float"; TTy "vec3"; TIx 3; TIx 0; TIx 1] ["wxy"; "arg"; "qst"];
  UM "shuffle_accessor_4" [TTy "float"; TTy "vec3"; TIx 0; TIx 1; TIx 1] ["xyy"; "rgg"; "stt"];
  UM "shuffle_accessor_4" [TTy "float"; TTy "vec3"; TIx 1; TIx 1; TIx 1] ["yyy"; "ggg"; "ttt"];
  UM "shuffle_accessor_4" [TTy "float"; TTy "vec3"; TIx 2; TIx 1; TIx 1] ["zyy"; "bgg"; "ptt"];
  UM "shuffle_accessor_4" [TTy "float"; TTy "vec3"; TIx 3; TIx 1; TIx 1] ["wyy"; "agg"; "qtt"];
  UM "shuffle_accessor_4" [TTy "float"; TTy "vec3"; TIx 0; TIx 2; TIx 1] ["xzy"; "rbg"; "spt"];
  UM "shuffle_accessor_4" [TTy "float"; TTy "vec3"; TIx 1; TIx 2; TIx 1] ["yzy"; "gbg"; "tpt"];
  UM "shuffle_accessor_4" [TTy "float"; TTy "vec3"; TIx 2; TIx 2; TIx 1] ["zzy"; "bbg"; "ppt"];
  UM "shuffle_accessor_4" [TTy "float"; TTy "vec3"; TIx 3; TIx 2; TIx 1] ["wzy"; "abg"; "qpt"];
  UM "shuffle_accessor_4" [TTy "float"; TTy "vec3"; TIx 0; TIx 3; TIx 1] ["xwy"; "rag"; "sqt"];
  UM "shuffle_accessor_4" [TTy "float"; TTy "vec3"; TIx 1; TIx 3; TIx 1] ["ywy"; "gag"; "tqt"];
  UM "shuffle_accessor_4" [TTy "float"; TTy "vec3"; TIx 2; TIx 3; TIx 1] ["zwy"; "bag"; "pqt"];
  UM "shuffle_accessor_4" [TTy "float"; TTy "vec3"; TIx 3; TIx 3; TIx 1] ["wwy"; "aag"; "qqt"];
  UM "shuffle_accessor_4" [TTy "float"; TTy "vec3"; TIx 0; TIx 0; TIx 2] ["xxz"; "rrb"; "ssp"];
  UM "shuffle_accessor_4" [TTy "float"; TTy "vec3"; TIx 1; TIx 0; TIx 2] ["yxz"; "grb"; "tsp"];
  UM "shuffle_accessor_4" [TTy "float"; TTy "vec3"; TIx 2; TIx 0; TIx 2] ["zxz"; "brb"; "psp"];
  UM "shuffle_accessor_4" [TTy "float"; TTy "vec3"; TIx 3; TIx 0; TIx 2] ["wxz"; "arb"; "qsp"];
  UM "shuffle_accessor_4" [TTy "float"; TTy "vec3"; TIx 0; TIx 1; TIx 2] ["xyz"; "rgb"; "stp"];
  UM "shuffle_accessor_4" [TTy "float"; TTy "vec3"; TIx 1; TIx 1; TIx 2] ["yyz"; "ggb"; "ttp"];
  UM "shuffle_accessor_4" [TTy "float"; TTy "vec3"; TIx 2; TIx 1; TIx 2] ["zyz"; "bgb"; "ptp"];
  UM "shuffle_accessor_4" [TTy "float"; TTy "vec3"; TIx 3; TIx 1; TIx 2] ["wyz"; "agb"; "qtp"];
  UM "shuffle_accessor_4" [TTy "float"; TTy "vec3"; TIx 0; TIx 2; TIx 2] ["xzz"; "rbb"; "spp"];
  UM "shuffle_accessor_4" [TTy "float"; TTy "vec3"; TIx 1; TIx 2; TIx 2] ["yzz"; "gbb"; "tpp"];
  UM "shuffle_accessor_4" [TTy "float"; TTy "vec3"; TIx 2; TIx 2; TIx 2] ["zzz"; "bbb"; "ppp"];
  UM "shuffle_accessor_4" [TTy "float"; TTy "vec3"; TIx 3; TIx 2; TIx 2] ["wzz"; "abb"; "qpp"];
  UM "shuffle_accessor_4" [TTy "float"; TTy "vec3"; TIx 0; TIx 3; TIx 2] ["xwz"; "rab"; "sqp"];
  UM "shuffle_accessor_4" [TTy "float"; TTy "vec3"; TIx 1; TIx 3; TIx 2] ["ywz"; "gab"; "tqp"];
  UM "shuffle_accessor_4" [TTy "float"; TTy "vec3"; TIx 2; TIx 3; TIx 2] ["zwz"; "bab"; "pqp"];
  UM "shuffle_accessor_4" [TTy "float"; TTy "vec3"; TIx 3; TIx 3; TIx 2] ["wwz"; "aab"; "qqp"];
  UM "shuffle_accessor_4" [TTy "float"; TTy "vec3"; TIx 0; TIx 0; TIx 3] ["xxw"; "rra"; "ssq"];
  UM "shuffle_accessor_4" [TTy "float"; TTy "vec3"; TIx 1; TIx 0; TIx 3] ["yxw"; "gra"; "tsq"];
  UM "shuffle_accessor_4" [TTy "float"; TTy "vec3"; TIx 2; TIx 0; TIx 3] ["zxw"; "bra"; "psq"];
  UM "shuffle_accessor_4" [TTy "float"; TTy "vec3"; TIx 3; TIx 0; TIx 3] ["wxw"; "ara"; "qsq"];
  UM "shuffle_accessor_4" [TTy "float"; TTy "vec3"; TIx 0; TIx 1; TIx 3] ["xyw"; "rga"; "stq"];
  UM "shuffle_accessor_4" [TTy "float"; TTy "vec3"; TIx 1; TIx 1; TIx 3] ["yyw"; "gga"; "ttq"];
  UM "shuffle_accessor_4" [TTy "float"; TTy "vec3"; TIx 2; TIx 1; TIx 3] ["zyw"; "bga"; "ptq"];
  UM "shuffle_accessor_4" [TTy "float"; TTy "vec3"; TIx 3; TIx 1; TIx 3] ["wyw"; "aga"; "qtq"];
  UM "shuffle_accessor_4" [TTy "float"; TTy "vec3"; TIx 0; TIx 2; TIx 3] ["xzw"; "rba"; "spq"];
  UM "shuffle_accessor_4" [TTy "float"; TTy "vec3"; TIx 1; TIx 2; TIx 3] ["yzw"; "gba"; "tpq"];
  UM "shuffle_accessor_4" [TTy "float"; TTy "vec3"; TIx 2; TIx 2; TIx 3] ["zzw"; "bba"; "ppq"];
  UM "shuffle_accessor_4" [TTy "float"; TTy "vec3"; TIx 3; TIx 2; TIx 3] ["wzw"; "aba"; "qpq"];
  UM "shuffle_accessor_4" [TTy "float"; TTy "vec3"; TIx 0; TIx 3; TIx 3] ["xww"; "raa"; "sqq"];
  UM "shuffle_accessor_4" [TTy "float"; TTy "vec3"; TIx 1; TIx 3; TIx 3] ["yww"; "gaa"; "tqq"];
  UM "shuffle_accessor_4" [TTy "float"; TTy "vec3"; TIx 2; TIx 3; TIx 3] ["zww"; "baa"; "pqq"];
  UM "shuffle_accessor_4" [TTy "float"; TTy "vec3"; TIx 3; TIx 3; TIx 3] ["www"; "aaa"; "qqq"];
  UM "shuffle_accessor_4" [TTy "float"; TTy "vec4"; TIx 0; TIx 0; TIx 0; TIx 0] ["xxxx"; "rrrr"; "ssss"];
  UM "shuffle_accessor_4" [TTy "float"; TTy "vec4"; TIx 1; TIx 0; TIx 0; TIx 0] ["yxxx"; "grrr"; "tsss"];
  UM "shuffle_accessor_4" [TTy "float"; TTy "vec4"; TIx 2; TIx 0; TIx 0; TIx 0] ["zxxx"; "brrr"; "psss"];
  UM "shuffle_accessor_4" [TTy "float"; TTy "vec4"; TIx 3; TIx 0; TIx 0; TIx 0] ["wxxx"; "arrr"; "qsss"];
  UM "shuffle_accessor_4" [TTy "float"; TTy "vec4"; TIx 0; TIx 1; TIx 0; TIx 0] ["xyxx"; "rgrr"; "stss"];
  UM "shuffle_accessor_4" [TTy "float"; TTy "vec4"; TIx 1; TIx 1; TIx 0; TIx 0] ["yyxx"; "ggrr"; "ttss"];
  UM "shuffle_accessor_4" [TTy "float"; TTy "vec4"; TIx 2; TIx 1; TIx 0; TIx 0] ["zyxx"; "bgrr"; "ptss"];
  UM "shuffle_accessor_4" [TTy "float"; TTy "vec4"; TIx 3; TIx 1; TIx 0; TIx 0] ["wyxx"; "agrr"; "qtss"];
  UM "shuffle_accessor_4" [TTy "float"; TTy "vec4"; TIx 0; TIx 2; TIx 0; TIx 0] ["xzxx"; "rbrr"; "spss"];
  UM "shuffle_accessor_4" [TTy "float"; TTy "vec4"; TIx 1; TIx 2; TIx 0; TIx 0] ["yzxx"; "gbrr"; "tpss"];
  UM "shuffle_accessor_4" [TTy "float"; TTy "vec4"; TIx 2; TIx 2; TIx 0; TIx 0] ["zzxx"; "bbrr"; "ppss"];
  UM "shuffle_accessor_4" [TTy "float"; TTy "vec4"; TIx 3; TIx 2; TIx 0; TIx 0] ["wzxx"; "abrr"; "qpss"];
  UM "shuffle_accessor_4" [TTy "float"; TTy "vec4"; TIx 0; TIx 3; TIx 0; TIx 0] ["xwxx"; "rarr"; "sqss"];
  UM "shuffle_accessor_4" [TTy "float"; TTy "vec4"; TIx 1; TIx 3; TIx 0; TIx 0] ["ywxx"; "garr"; "tqss"];
  UM "shuffle_accessor_4" [TTy "float"; TTy "vec4"; TIx 2; TIx 3; TIx 0; TIx 0] ["zwxx"; "barr"; "pqss"];
  UM "shuffle_accessor_4" [TTy "float"; TTy "vec4"; TIx 3; TIx 3; TIx 0; TIx 0] ["wwxx"; "aarr"; "qqss"];
  UM "shuffle_accessor_4" [TTy "float"; TTy "vec4"; TIx 0; TIx 0; TIx 1; TIx 0] ["xxyx"; "rrgr"; "ssts"];
  UM "shuffle_accessor_4" [TTy "float"; TTy "vec4"; TIx 1; TIx 0; TIx 1; TIx 0] ["yxyx"; "grgr"; "tsts"];
  UM "shuffle_accessor_4" [TTy "float"; TTy "vec4"; TIx 2; TIx 0; TIx 1; TIx 0] ["zxyx"; "brgr"; "psts"];
  UM "shuffle_accessor_4" [TTy "float"; TTy "vec4"; TIx 3; TIx 0; TIx 1; TIx 0] ["wxyx"; "argr"; "qsts"];
  UM "shuffle_accessor_4" [TTy "float"; TTy "vec4"; TIx 0; TIx 1; TIx 1; TIx 0] ["xyyx"; "rggr"; "stts"];
  UM "shuffle_accessor_4" [TTy "float"; TTy "vec4"; TIx 1; TIx 1; TIx 1; TIx 0] ["yyyx"; "gggr"; "ttts"];
  UM "shuffle_accessor_4" [TTy "float"; TTy "vec4"; TIx 2; TIx 1; TIx 1; TIx 0] ["zyyx"; "bggr"; "ptts"];
  UM "shuffle_accessor_4" [TTy "float"; TTy "vec4"; TIx 3; TIx 1; TIx 1; TIx 0] ["wyyx"; "aggr"; "qtts"];
  UM "shuffle_accessor_4" [TTy "float"; TTy "vec4"; TIx 0; TIx 2; TIx 1; TIx 0] ["xzyx"; "rbgr"; "spts"];
  UM "shuffle_accessor_4" [TTy "float"; TTy "vec4"; TIx 1; TIx 2; TIx 1; TIx 0] ["yzyx"; "gbgr"; "tpts"];
  UM "shuffle_accessor_4" [TTy "float"; TTy "vec4"; TIx 2; TIx 2; TIx 1; TIx 0] ["zzyx"; "bbgr"; "ppts"];
  UM "shuffle_accessor_4" [TTy "float"; TTy "vec4"; TIx 3; TIx 2; TIx 1; TIx 0] ["wzyx"; "abgr"; "qpts"];
  UM "shuffle_accessor_4" [TTy "float"; TTy "vec4"; TIx 0; TIx 3; TIx 1; TIx 0] ["xwyx"; "ragr"; "sqts"];
  UM "shuffle_accessor_4" [TTy "float"; TTy "vec4"; TIx 1; TIx 3; TIx 1; TIx 0] ["ywyx"; "gagr"; "tqts"];
  UM "shuffle_accessor_4" [TTy "float"; TTy "vec4"; TIx 2; TIx 3; TIx 1; TIx 0] ["zwyx"; "bagr"; "pqts"];
  UM "shuffle_accessor_4" [TTy "float"; TTy "vec4"; TIx 3; TIx 3; TIx 1; TIx 0] ["wwyx"; "aagr"; "qqts"];
  UM "shuffle_accessor_4" [TTy "float"; TTy "vec4"; TIx 0; TIx 0; TIx 2; TIx 0] ["xxzx"; "rrbr"; "ssps"];
  UM "shuffle_accessor_4" [TTy "float"; TTy "vec4"; TIx 1; TIx 0; TIx 2; TIx 0] ["yxzx"; "grbr"; "tsps"];
  UM "shuffle_accessor_4" [TTy "float"; TTy "vec4"; TIx 2; TIx 0; TIx 2; TIx 0] ["zxzx"; "brbr"; "psps"];
  UM "shuffle_accessor_4" [TTy "float"; TTy "vec4"; TIx 3; TIx 0; TIx 2; TIx 0] ["wxzx"; "arbr"; "qsps"];
  UM "shuffle_accessor_4" [TTy "float"; TTy "vec4"; TIx 0; TIx 1; TIx 2; TIx 0] ["xyzx"; "rgbr"; "stps"];
  UM "shuffle_accessor_4" [TTy "float"; TTy "vec4"; TIx 1; TIx 1; TIx 2; TIx 0] ["yyzx"; "ggbr"; "ttps"];
  UM "shuffle_accessor_4" [TTy "float"; TTy "vec4"; TIx 2; TIx 1; TIx 2; TIx 0] ["zyzx"; "bgbr"; "ptps"];
  UM "shuffle_accessor_4" [TTy "float"; TTy "vec4"; TIx 3; TIx 1; TIx 2; TIx 0] ["wyzx"; "agbr"; "qtps"];
  UM "shuffle_accessor_4" [TTy "float"; TTy "vec4"; TIx 0; TIx 2; TIx 2; TIx 0] ["xzzx"; "rbbr"; "spps"];
  UM "shuffle_accessor_4" [TTy "float"; TTy "vec4"; TIx 1; TIx 2; TIx 2; TIx 0] ["yzzx"; "gbbr"; "tpps"];
  UM "shuffle_accessor_4" [TTy "float"; TTy "vec4"; TIx 2; TIx 2; TIx 2; TIx 0] ["zzzx"; "bbbr"; "ppps"];
  UM "shuffle_accessor_4" [TTy "float"; TTy "vec4"; TIx 3; TIx 2; TIx 2; TIx 0] ["wzzx"; "abbr"; "qpps"];
  UM "shuffle_accessor_4" [TTy "float"; TTy "vec4"; TIx 0; TIx 3; TIx 2; TIx 0] ["xwzx"; "rabr"; "sqps"];
  UM "shuffle_accessor_4" [TTy "float"; TTy "vec4"; TIx 1; TIx 3; TIx 2; TIx 0] ["ywzx"; "gabr"; "tqps"];
  UM "shuffle_accessor_4" [TTy "float"; TTy "vec4"; TIx 2; TIx 3; TIx 2; TIx 0] ["zwzx"; "babr"; "pqps"];
  UM "shuffle_accessor_4" [TTy "float"; TTy "vec4"; TIx 3; TIx 3; TIx 2; TIx 0] ["wwzx"; "aabr"; "qqps"];
  UM "shuffle_accessor_4" [TTy "float"; TTy "vec4"; TIx 0; TIx 0; TIx 3; TIx 0] ["xxwx"; "rrar"; "ssqs"];
  UM "shuffle_accessor_4" [TTy "float"; TTy "vec4"; TIx 1; TIx 0; TIx 3; TIx 0] ["yxwx"; "grar"; "tsqs"];
  UM "shuffle_accessor_4" [TTy "float"; TTy "vec4"; TIx 2; TIx 0; TIx 3; TIx 0] ["zxwx"; "brar"; "psqs"];
  UM "shuffle_accessor_4" [TTy "float"; TTy "vec4"; TIx 3; TIx 0; TIx 3; TIx 0] ["wxwx"; "arar"; "qsqs"];
  UM "shuffle_accessor_4" [TTy "float"; TTy "vec4"; TIx 0; TIx 1; TIx 3; TIx 0] ["xywx"; "rgar"; "stqs"];
  UM "shuffle_accessor_4" [TTy "float"; TTy "vec4"; TIx 1; TIx 1; TIx 3; TIx 0] ["yywx"; "ggar"; "ttqs"];
  UM "shuffle_accessor_4" [TTy "float"; TTy "vec4"; TIx 2; TIx 1; TIx 3; TIx 0] ["zywx"; "bgar"; "ptqs"];
  UM "shuffle_accessor_4" [TTy "float"; TTy "vec4"; TIx 3; TIx 1; TIx 3; TIx 0] ["wywx"; "agar"; "qtqs"];
  UM "shuffle_accessor_4" [TTy "float"; TTy "vec4"; TIx 0; TIx 2; TIx 3; TIx 0] ["xzwx"; "rbar"; "spqs"];
  UM "shuffle_accessor_4" [TTy "float"; TTy "vec4"; TIx 1; TIx 2; TIx 3; TIx 0] ["yzwx"; "gbar"; "tpqs"];
  UM "shuffle_accessor_4" [TTy "float"; TTy "vec4"; TIx 2; TIx 2; TIx 3; TIx 0] ["zzwx"; "bbar"; "ppqs"];
  UM "shuffle_accessor_4" [TTy "float"; TTy "vec4"; TIx 3; TIx 2; TIx 3; TIx 0] ["wzwx"; "abar"; "qpqs"];
  UM "shuffle_accessor_4" [TTy "float"; TTy "vec4"; TIx 0; TIx 3; TIx 3; TIx 0] ["xwwx"; "raar"; "sqqs"];
  UM "shuffle_accessor_4" [TTy "float"; TTy "vec4"; TIx 1; TIx 3; TIx 3; TIx 0] ["ywwx"; "gaar"; "tqqs"];
  UM "shuffle_accessor_4" [TTy "float"; TTy "vec4"; TIx 2; TIx 3; TIx 3; TIx 0] ["zwwx"; "baar"; "pqqs"];
  UM "shuffle_accessor_4" [TTy "float"; TTy "vec4"; TIx 3; TIx 3; TIx 3; TIx 0] ["wwwx"; "aaar"; "qqqs"];
  UM "shuffle_accessor_4" [TTy "float"; TTy "vec4"; TIx 0; TIx 0; TIx 0; TIx 1] ["xxxy"; "rrrg"; "ssst"];
  UM "shuffle_accessor_4" [TTy "float"; TTy "vec4"; TIx 1; TIx 0; TIx 0; TIx 1] ["yxxy"; "grrg"; "tsst"];
  UM "shuffle_accessor_4" [TTy "float"; TTy "vec4"; TIx 2; TIx 0; TIx 0; TIx 1] ["zxxy"; "brrg"; "psst"];
  UM "shuffle_accessor_4" [TTy "float"; TTy "vec4"; TIx 3; TIx 0; TIx 0; TIx 1] ["wxxy"; "arrg"; "qsst"];
  UM "shuffle_accessor_4" [TTy "float"; TTy "vec4"; TIx 0; TIx 1; TIx 0; TIx 1] ["xyxy"; "rgrg"; "stst"];
  UM "shuffle_accessor_4" [TTy "float"; TTy "vec4"; TIx 1; TIx 1; TIx 0; TIx 1] ["yyxy"; "ggrg"; "ttst"];
  UM "shuffle_accessor_4" [TTy "float"; TTy "vec4"; TIx 2; TIx 1; TIx 0; TIx 1] ["zyxy"; "bgrg"; "ptst"];
  UM "shuffle_accessor_4" [TTy "float"; TTy "vec4"; TIx 3; TIx 1; TIx 0; TIx 1] ["wyxy"; "agrg"; "qtst"];
  UM "shuffle_accessor_4" [TTy "float"; TTy "vec4"; TIx 0; TIx 2; TIx 0; TIx 1] ["xzxy"; "rbrg"; "spst"];
  UM "shuffle_accessor_4" [TTy "float"; TTy "vec4"; TIx 1; TIx 2; TIx 0; TIx 1] ["yzxy"; "gbrg"; "tpst"];
  UM "shuffle_accessor_4" [TTy "float"; TTy "vec4"; TIx 2; TIx 2; TIx 0; TIx 1] ["zzxy"; "bbrg"; "ppst"];
  UM "shuffle_accessor_4" [TTy "float"; TTy "vec4"; TIx 3; TIx 2; TIx 0; TIx 1] ["wzxy"; "abrg"; "qpst"];
  UM "shuffle_accessor_4" [TTy "float"; TTy "vec4"; TIx 0; TIx 3; TIx 0; TIx 1] ["xwxy"; "rarg"; "sqst"];
  UM "shuffle_accessor_4" [TTy "float"; TTy "vec4"; TIx 1; TIx 3; TIx 0; TIx 1] ["ywxy"; "garg"; "tqst"];
  UM "shuffle_accessor_4" [TTy "float"; TTy "vec4"; TIx 2; TIx 3; TIx 0; TIx 1] ["zwxy"; "barg"; "pqst"];
  UM "shuffle_accessor_4" [TTy "float"; TTy "vec4"; TIx 3; TIx 3; TIx 0; TIx 1] ["wwxy"; "aarg"; "qqst"];
  UM "shuffle_accessor_4" [TTy "float"; TTy "vec4"; TIx 0; TIx 0; TIx 1; TIx 1] ["xxyy"; "rrgg"; "sstt"];
  UM "shuffle_accessor_4" [TTy "float"; TTy "vec4"; TIx 1; TIx 0; TIx 1; TIx 1] ["yxyy"; "grgg"; "tstt"];
  UM "shuffle_accessor_4" [TTy "float"; TTy "vec4"; TIx 2; TIx 0; TIx 1; TIx 1] ["zxyy"; "brgg"; "pstt"];
  UM "shuffle_accessor_4" [TTy "float"; TTy "vec4"; TIx 3; TIx 0; TIx 1; TIx 1] ["wxyy"; "argg"; "qstt"];
  UM "shuffle_accessor_4" [TTy "float"; TTy "vec4"; TIx 0; TIx 1; TIx 1; TIx 1] ["xyyy"; "rggg"; "sttt"];
  UM "shuffle_accessor_4" [TTy "float"; TTy "vec4"; TIx 1; TIx 1; TIx 1; TIx 1] ["yyyy"; "gggg"; "tttt"];
  UM "shuffle_accessor_4" [TTy "float"; TTy "vec4"; TIx 2; TIx 1; TIx 1; TIx 1] ["zyyy"; "bggg"; "pttt"];
  UM "shuffle_accessor_4" [TTy "float"; TTy "vec4"; TIx 3; TIx 1; TIx 1; TIx 1] ["wyyy"; "aggg"; "qttt"];
  UM "shuffle_accessor_4" [TTy "float"; TTy "vec4"; TIx 0; TIx 2; TIx 1; TIx 1] ["xzyy"; "rbgg"; "sptt"];
  UM "shuffle_accessor_4" [TTy "float"; TTy "vec4"; TIx 1; TIx 2; TIx 1; TIx 1] ["yzyy"; "gbgg"; "tptt"];
  UM "shuffle_accessor_4" [TTy "float"; TTy "vec4"; TIx 2; TIx 2; TIx 1; TIx 1] ["zzyy"; "bbgg"; "pptt"];
  UM "shuffle_accessor_4" [TTy "float"; TTy "vec4"; TIx 3; TIx 2; TIx 1; TIx 1] ["wzyy"; "abgg"; "qptt"];
  UM "shuffle_accessor_4" [TTy "float"; TTy "vec4"; TIx 0; TIx 3; TIx 1; TIx 1] ["xwyy"; "ragg"; "sqtt"];
  UM "shuffle_accessor_4" [TTy "float"; TTy "vec4"; TIx 1; TIx 3; TIx 1; TIx 1] ["ywyy"; "gagg"; "tqtt"];
  UM "shuffle_accessor_4" [TTy "float"; TTy "vec4"; TIx 2; TIx 3; TIx 1; TIx 1] ["zwyy"; "bagg"; "pqtt"];
  UM "shuffle_accessor_4" [TTy "float"; TTy "vec4"; TIx 3; TIx 3; TIx 1; TIx 1] ["wwyy"; "aagg"; "qqtt"];
  UM "shuffle_accessor_4" [TTy "float"; TTy "vec4"; TIx 0; TIx 0; TIx 2; TIx 1] ["xxzy"; "rrbg"; "sspt"];
  UM "shuffle_accessor_4" [TTy "float"; TTy "vec4"; TIx 1; TIx 0; TIx 2; TIx 1] ["yxzy"; "grbg"; "tspt"];
  UM "shuffle_accessor_4" [TTy "float"; TTy "vec4"; TIx 2; TIx 0; TIx 2; TIx 1] ["zxzy"; "brbg"; "pspt"];
  UM "shuffle_accessor_4" [TTy "float"; TTy "vec4"; TIx 3; TIx 0; TIx 2; TIx 1] ["wxzy"; "arbg"; "qspt"];
  UM "shuffle_accessor_4" [TTy "float"; TTy "vec4"; TIx 0; TIx 1; TIx 2; TIx 1] ["xyzy"; "rgbg"; "stpt"];
  UM "shuffle_accessor_4" [TTy "float"; TTy "vec4"; TIx 1; TIx 1; TIx 2; TIx 1] ["yyzy"; "ggbg"; "ttpt"];
  UM "shuffle_accessor_4" [TTy "float"; TTy "vec4"; TIx 2; TIx 1; TIx 2; TIx 1] ["zyzy"; "bgbg"; "ptpt"];
  UM "shuffle_accessor_4" [TTy "float"; TTy "vec4"; TIx 3; TIx 1; TIx 2; TIx 1] ["wyzy"; "agbg"; "qtpt"];
  UM "shuffle_accessor_4" [TTy "float"; TTy "vec4"; TIx 0; TIx 2; TIx 2; TIx 1] ["xzzy"; "rbbg"; "sppt"];
  UM "shuffle_accessor_4" [TTy "float"; TTy "vec4"; TIx 1; TIx 2; TIx 2; TIx 1] ["yzzy"; "gbbg"; "tppt"];
  UM "shuffle_accessor_4" [TTy "float"; TTy "vec4"; TIx 2; TIx 2; TIx 2; TIx 1] ["zzzy"; "bbbg"; "pppt"];
  UM "shuffle_accessor_4" [TTy "float"; TTy "vec4"; TIx 3; TIx 2; TIx 2; TIx 1] ["wzzy"; "abbg"; "qppt"];
  UM "shuffle_accessor_4" [TTy "float"; TTy "vec4"; TIx 0; TIx 3; TIx 2; TIx 1] ["xwzy"; "rabg"; "sqpt"];
  UM "shuffle_accessor_4" [TTy "float"; TTy "vec4"; TIx 1; TIx 3; TIx 2; TIx 1] ["ywzy"; "gabg"; "tqpt"];
  UM "shuffle_accessor_4" [TTy "float"; TTy "vec4"; TIx 2; TIx 3; TIx 2; TIx 1] ["zwzy"; "babg"; "pqpt"];
  UM "shuffle_accessor_4" [TTy "float"; TTy "vec4"; TIx 3; TIx 3; TIx 2; TIx 1] ["wwzy"; "aabg"; "qqpt"];
  UM "shuffle_accessor_4" [TTy "float"; TTy "vec4"; TIx 0; TIx 0; TIx 3; TIx 1] ["xxwy"; "rrag"; "ssqt"];
  UM "shuffle_accessor_4" [TTy "float"; TTy "vec4"; TIx 1; TIx 0; TIx 3; TIx 1] ["yxwy"; "grag"; "tsqt"];
  UM "shuffle_accessor_4" [TTy "float"; TTy "vec4"; TIx 2; TIx 0; TIx 3; TIx 1] ["zxwy"; "brag"; "psqt"];
  UM "shuffle_accessor_4" [TTy "float"; TTy "vec4"; TIx 3; TIx 0; TIx 3; TIx 1] ["wxwy"; "arag"; "qsqt"];
  UM "shuffle_accessor_4" [TTy "float"; TTy "vec4"; TIx 0; TIx 1; TIx 3; TIx 1] ["xywy"; "rgag"; "stqt"];
  UM "shuffle_accessor_4" [TTy "float"; TTy "vec4"; TIx 1; TIx 1; TIx 3; TIx 1] ["yywy"; "ggag"; "ttqt"];
  UM "shuffle_accessor_4" [TTy "float"; TTy "vec4"; TIx 2; TIx 1; TIx 3; TIx 1] ["zywy"; "bgag"; "ptqt"];
  UM "shuffle_accessor_4" [TTy "float"; TTy "vec4"; TIx 3; TIx 1; TIx 3; TIx 1] ["wywy"; "agag"; "qtqt"];
  UM "shuffle_accessor_4" [TTy "float"; TTy "vec4"; TIx 0; TIx 2; TIx 3; TIx 1] ["xzwy"; "rbag"; "spqt"];
  UM "shuffle_accessor_4" [TTy "float"; TTy "vec4"; TIx 1; TIx 2; TIx 3; TIx 1] ["yzwy"; "gbag"; "tpqt"];
  UM "shuffle_accessor_4" [TTy "float"; TTy "vec4"; TIx 2; TIx 2; TIx 3; TIx 1] ["zzwy"; "bbag"; "ppqt"];
  UM "shuffle_accessor_4" [TTy "float"; TTy "vec4"; TIx 3; TIx 2; TIx 3; TIx 1] ["wzwy"; "abag"; "qpqt"];
  UM "shuffle_accessor_4" [TTy "float"; TTy "vec4"; TIx 0; TIx 3; TIx 3; TIx 1] ["xwwy"; "raag"; "sqqt"];
  UM "shuffle_accessor_4" [TTy "float"; TTy "vec4"; TIx 1; TIx 3; TIx 3; TIx 1] ["ywwy"; "gaag"; "tqqt"];
  UM "shuffle_accessor_4" [TTy "float"; TTy "vec4"; TIx 2; TIx 3; TIx 3; TIx 1] ["zwwy"; "baag"; "pqqt"];
  UM "shuffle_accessor_4" [TTy "float"; TTy "vec4"; TIx 3; TIx 3; TIx 3; TIx 1] ["wwwy"; "aaag"; "qqqt"];
  UM "shuffle_accessor_4" [TTy "float"; TTy "vec4"; TIx 0; TIx 0; TIx 0; TIx 2] ["xxxz"; "rrrb"; "sssp"];
  UM "shuffle_accessor_4" [TTy "float"; TTy "vec4"; TIx 1; TIx 0; TIx 0; TIx 2] ["yxxz"; "grrb"; "tssp"];
  UM "shuffle_accessor_4" [TTy "float"; TTy "vec4"; TIx 2; TIx 0; TIx 0; TIx 2] ["zxxz"; "brrb"; "pssp"];
  UM "shuffle_accessor_4" [TTy "float"; TTy "vec4"; TIx 3; TIx 0; TIx 0; TIx 2] ["wxxz"; "arrb"; "qssp"];
  UM "shuffle_accessor_4" [TTy "float"; TTy "vec4"; TIx 0; TIx 1; TIx 0; TIx 2] ["xyxz"; "rgrb"; "stsp"];
  UM "shuffle_accessor_4" [TTy "float"; TTy "vec4"; TIx 1; TIx 1; TIx 0; TIx 2] ["yyxz"; "ggrb"; "ttsp"];
  UM "shuffle_accessor_4" [TTy "float"; TTy "vec4"; TIx 2; TIx 1; TIx 0; TIx 2] ["zyxz"; "bgrb"; "ptsp"];
  UM "shuffle_accessor_4" [TTy "float"; TTy "vec4"; TIx 3; TIx 1; TIx 0; TIx 2] ["wyxz"; "agrb"; "qtsp"];
  UM "shuffle_accessor_4" [TTy "float"; TTy "vec4"; TIx 0; TIx 2; TIx 0; TIx 2] ["xzxz"; "rbrb"; "spsp"];
  UM "shuffle_accessor_4" [TTy "float"; TTy "vec4"; TIx 1; TIx 2; TIx 0; TIx 2] ["yzxz"; "gbrb"; "tpsp"];
  UM "shuffle_accessor_4" [TTy "float"; TTy "vec4"; TIx 2; TIx 2; TIx 0; TIx 2] ["zzxz"; "bbrb"; "ppsp"];
  UM "shuffle_accessor_4" [TTy "float"; TTy "vec4"; TIx 3; TIx 2; TIx 0; TIx 2] ["wzxz"; "abrb"; "qpsp"];
  UM "shuffle_accessor_4" [TTy "float"; TTy "vec4"; TIx 0; TIx 3; TIx 0; TIx 2] ["xwxz"; "rarb"; "sqsp"];
  UM "shuffle_accessor_4" [TTy "float"; TTy "vec4"; TIx 1; TIx 3; TIx 0; TIx 2] ["ywxz"; "garb"; "tqsp"];
  UM "shuffle_accessor_4" [TTy "float"; TTy "vec4"; TIx 2; TIx 3; TIx 0; TIx 2] ["zwxz"; "barb"; "pqsp"];
  UM "shuffle_accessor_4" [TTy "float"; TTy "vec4"; TIx 3; TIx 3; TIx 0; TIx 2] ["wwxz"; "aarb"; "qqsp"];
  UM "shuffle_accessor_4" [TTy "float"; TTy "vec4"; TIx 0; TIx 0; TIx 1; TIx 2] ["xxyz"; "rrgb"; "sstp"];
  UM "shuffle_accessor_4" [TTy "float"; TTy "vec4"; TIx 1; TIx 0; TIx 1; TIx 2] ["yxyz"; "grgb"; "tstp"];
  UM "shuffle_accessor_4" [TTy "float"; TTy "vec4"; TIx 2; TIx 0; TIx 1; TIx 2] ["zxyz"; "brgb"; "pstp"];
  UM "shuffle_accessor_4" [TTy "float"; TTy "vec4"; TIx 3; TIx 0; TIx 1; TIx 2] ["wxyz"; "argb"; "qstp"];
  UM "shuffle_accessor_4" [TTy "float"; TTy "vec4"; TIx 0; TIx 1; TIx 1; TIx 2] ["xyyz"; "rggb"; "sttp"];
  UM "shuffle_accessor_4" [TTy "float"; TTy "vec4"; TIx 1; TIx 1; TIx 1; TIx 2] ["yyyz"; "gggb"; "tttp"];
  UM "shuffle_accessor_4" [TTy "float"; TTy "vec4"; TIx 2; TIx 1; TIx 1; TIx 2] ["zyyz"; "bggb"; "pttp"];
  UM "shuffle_accessor_4" [TTy "float"; TTy "vec4"; TIx 3; TIx 1; TIx 1; TIx 2] ["wyyz"; "aggb"; "qttp"];
  UM "shuffle_accessor_4" [TTy "float"; TTy "vec4"; TIx 0; TIx 2; TIx 1; TIx 2] ["xzyz"; "rbgb"; "sptp"];
  UM "shuffle_accessor_4" [TTy "float"; TTy "vec4"; TIx 1; TIx 2; TIx 1; TIx 2] ["yzyz"; "gbgb"; "tptp"];
  UM "shuffle_accessor_4" [TTy "float"; TTy "vec4"; TIx 2; TIx 2; TIx 1; TIx 2] ["zzyz"; "bbgb"; "pptp"];
  UM "shuffle_accessor_4" [TTy "float"; TTy "vec4"; TIx 3; TIx 2; TIx 1; TIx 2] ["wzyz"; "abgb"; "qptp"];
  UM "shuffle_accessor_4" [TTy "float"; TTy "vec4"; TIx 0; TIx 3; TIx 1; TIx 2] ["xwyz"; "ragb"; "sqtp"];
  UM "shuffle_accessor_4" [TTy "float"; TTy "vec4"; TIx 1; TIx 3; TIx 1; TIx 2] ["ywyz"; "gagb"; "tqtp"];
  UM "shuffle_accessor_4" [TTy "float"; TTy "vec4"; TIx 2; TIx 3; TIx 1; TIx 2] ["zwyz"; "bagb"; "pqtp"];
  UM "shuffle_accessor_4" [TTy "float"; TTy "vec4"; TIx 3; TIx 3; TIx 1; TIx 2] ["wwyz"; "aagb"; "qqtp"];
  UM "shuffle_accessor_4" [TTy "float"; TTy "vec4"; TIx 0; TIx 0; TIx 2; TIx 2] ["xxzz"; "rrbb"; "sspp"];
  UM "shuffle_accessor_4" [TTy "float"; TTy "vec4"; TIx 1; TIx 0; TIx 2; TIx 2] ["yxzz"; "grbb"; "tspp"];
  UM "shuffle_accessor_4" [TTy "float"; TTy "vec4"; TIx 2; TIx 0; TIx 2; TIx 2] ["zxzz"; "brbb"; "pspp"];
  UM "shuffle_accessor_4" [TTy "float"; TTy "vec4"; TIx 3; TIx 0; TIx 2; TIx 2] ["wxzz"; "arbb"; "qspp"];
  UM "shuffle_accessor_4" [TTy "float"; TTy "vec4"; TIx 0; TIx 1; TIx 2; TIx 2] ["xyzz"; "rgbb"; "stpp"];
  UM "shuffle_accessor_4" [TTy "float"; TTy "vec4"; TIx 1; TIx 1; TIx 2; TIx 2] ["yyzz"; "ggbb"; "ttpp"];
  UM "shuffle_accessor_4" [TTy "float"; TTy "vec4"; TIx 2; TIx 1; TIx 2; TIx 2] ["zyzz"; "bgbb"; "ptpp"];
  UM "shuffle_accessor_4" [TTy "float"; TTy "vec4"; TIx 3; TIx 1; TIx 2; TIx 2] ["wyzz"; "agbb"; "qtpp"];
  UM "shuffle_accessor_4" [TTy "float"; TTy "vec4"; TIx 0; TIx 2; TIx 2; TIx 2] ["xzzz"; "rbbb"; "sppp"];
  UM "shuffle_accessor_4" [TTy "float"; TTy "vec4"; TIx 1; TIx 2; TIx 2; TIx 2] ["yzzz"; "gbbb"; "tppp"];
  UM "shuffle_accessor_4" [TTy "float"; TTy "vec4"; TIx 2; TIx 2; TIx 2; TIx 2] ["zzzz"; "bbbb"; "pppp"];
  UM "shuffle_accessor_4" [TTy "float"; TTy "vec4"; TIx 3; TIx 2; TIx 2; TIx 2] ["wzzz"; "abbb"; "qppp"];
  UM "shuffle_accessor_4" [TTy "float"; TTy "vec4"; TIx 0; TIx 3; TIx 2; TIx 2] ["xwzz"; "rabb"; "sqpp"];
  UM "shuffle_accessor_4" [TTy "float"; TTy "vec4"; TIx 1; TIx 3; TIx 2; TIx 2] ["ywzz"; "gabb"; "tqpp"];
  UM "shuffle_accessor_4" [TTy "float"; TTy "vec4"; TIx 2; TIx 3; TIx 2; TIx 2] ["zwzz"; "babb"; "pqpp"];
  UM "shuffle_accessor_4" [TTy "float"; TTy "vec4"; TIx 3; TIx 3; TIx 2; TIx 2] ["wwzz"; "aabb"; "qqpp"];
  UM "shuffle_accessor_4" [TTy "float"; TTy "vec4"; TIx 0; TIx 0; TIx 3; TIx 2] ["xxwz"; "rrab"; "ssqp"];
  UM "shuffle_accessor_4" [TTy "float"; TTy "vec4"; TIx 1; TIx 0; TIx 3; TIx 2] ["yxwz"; "grab"; "tsqp"];
  UM "shuffle_accessor_4" [TTy "float"; TTy "vec4"; TIx 2; TIx 0; TIx 3; TIx 2] ["zxwz"; "brab"; "psqp"];
  UM "shuffle_accessor_4" [TTy "float"; TTy "vec4"; TIx 3; TIx 0; TIx 3; TIx 2] ["wxwz"; "arab"; "qsqp"];
  UM "shuffle_accessor_4" [TTy "float"; TTy "vec4"; TIx 0; TIx 1; TIx 3; TIx 2] ["xywz"; "rgab"; "stqp"];
  UM "shuffle_accessor_4" [TTy "float"; TTy "vec4"; TIx 1; TIx 1; TIx 3; TIx 2] ["yywz"; "ggab"; "ttqp"];
  UM "shuffle_accessor_4" [TTy "float"; TTy "vec4"; TIx 2; TIx 1; TIx 3; TIx 2] ["zywz"; "bgab"; "ptqp"];
  UM "shuffle_accessor_4" [TTy "float"; TTy "vec4"; TIx 3; TIx 1; TIx 3; TIx 2] ["wywz"; "agab"; "qtqp"];
  UM "shuffle_accessor_4" [TTy "float"; TTy "vec4"; TIx 0; TIx 2; TIx 3; TIx 2] ["xzwz"; "rbab"; "spqp"];
  UM "shuffle_accessor_4" [TTy "float"; TTy "vec4"; TIx 1; TIx 2; TIx 3; TIx 2] ["yzwz"; "gbab"; "tpqp"];
  UM "shuffle_accessor_4" [TTy "float"; TTy "vec4"; TIx 2; TIx 2; TIx 3; TIx 2] ["zzwz"; "bbab"; "ppqp"];
  UM "shuffle_accessor_4" [TTy "float"; TTy "vec4"; TIx 3; TIx 2; TIx 3; TIx 2] ["wzwz"; "abab"; "qpqp"];
  UM "shuffle_accessor_4" [TTy "float"; TTy "vec4"; TIx 0; TIx 3; TIx 3; TIx 2] ["xwwz"; "raab"; "sqqp"];
  UM "shuffle_accessor_4" [TTy "float"; TTy "vec4"; TIx 1; TIx 3; TIx 3; TIx 2] ["ywwz"; "gaab"; "tqqp"];
  UM "shuffle_accessor_4" [TTy "float"; TTy "vec4"; TIx 2; TIx 3; TIx 3; TIx 2] ["zwwz"; "baab"; "pqqp"];
  UM "shuffle_accessor_4" [TTy "float"; TTy "vec4"; TIx 3; TIx 3; TIx 3; TIx 2] ["wwwz"; "aaab"; "qqqp"];
  UM "shuffle_accessor_4" [TTy "float"; TTy "vec4"; TIx 0; TIx 0; TIx 0; TIx 3] ["xxxw"; "rrra"; "sssq"];
  UM "shuffle_accessor_4" [TTy "float"; TTy "vec4"; TIx 1; TIx 0; TIx 0; TIx 3] ["yxxw"; "grra"; "tssq"];
  UM "shuffle_accessor_4" [TTy "float"; TTy "vec4"; TIx 2; TIx 0; TIx 0; TIx 3] ["zxxw"; "brra"; "pssq"];
  UM "shuffle_accessor_4" [TTy "float"; TTy "vec4"; TIx 3; TIx 0; TIx 0; TIx 3] ["wxxw"; "arra"; "qssq"];
  UM "shuffle_accessor_4" [TTy "float"; TTy "vec4"; TIx 0; TIx 1; TIx 0; TIx 3] ["xyxw"; "rgra"; "stsq"];
  UM "shuffle_accessor_4" [TTy "float"; TTy "vec4"; TIx 1; TIx 1; TIx 0; TIx 3] ["yyxw"; "ggra"; "ttsq"];
  UM "shuffle_accessor_4" [TTy "float"; TTy "vec4"; TIx 2; TIx 1; TIx 0; TIx 3] ["zyxw"; "bgra"; "ptsq"];
  UM "shuffle_accessor_4" [TTy "float"; TTy "vec4"; TIx 3; TIx 1; TIx 0; TIx 3] ["wyxw"; "agra"; "qtsq"];
  UM "shuffle_accessor_4" [TTy "float"; TTy "vec4"; TIx 0; TIx 2; TIx 0; TIx 3] ["xzxw"; "rbra"; "spsq"];
  UM "shuffle_accessor_4" [TTy "float"; TTy "vec4"; TIx 1; TIx 2; TIx 0; TIx 3] ["yzxw"; "gbra"; "tpsq"];
  UM "shuffle_accessor_4" [TTy "float"; TTy "vec4"; TIx 2; TIx 2; TIx 0; TIx 3] ["zzxw"; "bbra"; "ppsq"];
  UM "shuffle_accessor_4" [TTy "float"; TTy "vec4"; TIx 3; TIx 2; TIx 0; TIx 3] ["wzxw"; "abra"; "qpsq"];
  UM "shuffle_accessor_4" [TTy "float"; TTy "vec4"; TIx 0; TIx 3; TIx 0; TIx 3] ["xwxw"; "rara"; "sqsq"];
  UM "shuffle_accessor_4" [TTy "float"; TTy "vec4"; TIx 1; TIx 3; TIx 0; TIx 3] ["ywxw"; "gara"; "tqsq"];
  UM "shuffle_accessor_4" [TTy "float"; TTy "vec4"; TIx 2; TIx 3; TIx 0; TIx 3] ["zwxw"; "bara"; "pqsq"];
  UM "shuffle_accessor_4" [TTy "float"; TTy "vec4"; TIx 3; TIx 3; TIx 0; TIx 3] ["wwxw"; "aara"; "qqsq"];
  UM "shuffle_accessor_4" [TTy "float"; TTy "vec4"; TIx 0; TIx 0; TIx 1; TIx 3] ["xxyw"; "rrga"; "sstq"];
  UM "shuffle_accessor_4" [TTy "float"; TTy "vec4"; TIx 1; TIx 0; TIx 1; TIx 3] ["yxyw"; "grga"; "tstq"];
  UM "shuffle_accessor_4" [TTy "float"; TTy "vec4"; TIx 2; TIx 0; TIx 1; TIx 3] ["zxyw"; "brga"; "pstq"];
  UM "shuffle_accessor_4" [TTy "float"; TTy "vec4"; TIx 3; TIx 0; TIx 1; TIx 3] ["wxyw"; "arga"; "qstq"];
  UM "shuffle_accessor_4" [TTy "float"; TTy "vec4"; TIx 0; TIx 1; TIx 1; TIx 3] ["xyyw"; "rgga"; "sttq"];
  UM "shuffle_accessor_4" [TTy "float"; TTy "vec4"; TIx 1; TIx 1; TIx 1; TIx 3] ["yyyw"; "ggga"; "tttq"];
  UM "shuffle_accessor_4" [TTy "float"; TTy "vec4"; TIx 2; TIx 1; TIx 1; TIx 3] ["zyyw"; "bgga"; "pttq"];
  UM "shuffle_accessor_4" [TTy "float"; TTy "vec4"; TIx 3; TIx 1; TIx 1; TIx 3] ["wyyw"; "agga"; "qttq"];
  UM "shuffle_accessor_4" [TTy "float"; TTy "vec4"; TIx 0; TIx 2; TIx 1; TIx 3] ["xzyw"; "rbga"; "sptq"];
  UM "shuffle_accessor_4" [TTy "float"; TTy "vec4"; TIx 1; TIx 2; TIx 1; TIx 3] ["yzyw"; "gbga"; "tptq"];
  UM "shuffle_accessor_4" [TTy "float"; TTy "vec4"; TIx 2; TIx 2; TIx 1; TIx 3] ["zzyw"; "bbga"; "pptq"];
  UM "shuffle_accessor_4" [TTy "float"; TTy "vec4"; TIx 3; TIx 2; TIx 1; TIx 3] ["wzyw"; "abga"; "qptq"];
  UM "shuffle_accessor_4" [TTy "float"; TTy "vec4"; TIx 0; TIx 3; TIx 1; TIx 3] ["xwyw"; "raga"; "sqtq"];
  UM "shuffle_accessor_4" [TTy "float"; TTy "vec4"; TIx 1; TIx 3; TIx 1; TIx 3] ["ywyw"; "gaga"; "tqtq"];
  UM "shuffle_accessor_4" [TTy "float"; TTy "vec4"; TIx 2; TIx 3; TIx 1; TIx 3] ["zwyw"; "baga"; "pqtq"];
  UM "shuffle_accessor_4" [TTy "float"; TTy "vec4"; TIx 3; TIx 3; TIx 1; TIx 3] ["wwyw"; "aaga"; "qqtq"];
  UM "shuffle_accessor_4" [TTy "float"; TTy "vec4"; TIx 0; TIx 0; TIx 2; TIx 3] ["xxzw"; "rrba"; "sspq"];
  UM "shuffle_accessor_4" [TTy "float"; TTy "vec4"; TIx 1; TIx 0; TIx 2; TIx 3] ["yxzw"; "grba"; "tspq"];
  UM "shuffle_accessor_4" [TTy "float"; TTy "vec4"; TIx 2; TIx 0; TIx 2; TIx 3] ["zxzw"; "brba"; "pspq"];
  UM "shuffle_accessor_4" [TTy "float"; TTy "vec4"; TIx 3; TIx 0; TIx 2; TIx 3] ["wxzw"; "arba"; "qspq"];
  UM "shuffle_accessor_4" [TTy "float"; TTy "vec4"; TIx 0; TIx 1; TIx 2; TIx 3] ["xyzw"; "rgba"; "stpq"];
  UM "shuffle_accessor_4" [TTy "float"; TTy "vec4"; TIx 1; TIx 1; TIx 2; TIx 3] ["yyzw"; "ggba"; "ttpq"];
  UM "shuffle_accessor_4" [TTy "float"; TTy "vec4"; TIx 2; TIx 1; TIx 2; TIx 3] ["zyzw"; "bgba"; "ptpq"];
  UM "shuffle_accessor_4" [TTy "float"; TTy "vec4"; TIx 3; TIx 1; TIx 2; TIx 3] ["wyzw"; "agba"; "qtpq"];
  UM "shuffle_accessor_4" [TTy "float"; TTy "vec4"; TIx 0; TIx 2; TIx 2; TIx 3] ["xzzw"; "rbba"; "sppq"];
  UM "shuffle_accessor_4" [TTy "float"; TTy "vec4"; TIx 1; TIx 2; TIx 2; TIx 3] ["yzzw"; "gbba"; "tppq"];
  UM "shuffle_accessor_4" [TTy "float"; TTy "vec4"; TIx 2; TIx 2; TIx 2; TIx 3] ["zzzw"; "bbba"; "pppq"];
  UM "shuffle_accessor_4" [TTy "float"; TTy "vec4"; TIx 3; TIx 2; TIx 2; TIx 3] ["wzzw"; "abba"; "qppq"];
  UM "shuffle_accessor_4" [TTy "float"; TTy "vec4"; TIx 0; TIx 3; TIx 2; TIx 3] ["xwzw"; "raba"; "sqpq"];
  UM "shuffle_accessor_4" [TTy "float"; TTy "vec4"; TIx 1; TIx 3; TIx 2; TIx 3] ["ywzw"; "gaba"; "tqpq"];
  UM "shuffle_accessor_4" [TTy "float"; TTy "vec4"; TIx 2; TIx 3; TIx 2; TIx 3] ["zwzw"; "baba"; "pqpq"];
  UM "shuffle_accessor_4" [TTy "float"; TTy "vec4"; TIx 3; TIx 3; TIx 2; TIx 3] ["wwzw"; "aaba"; "qqpq"];
  UM "shuffle_accessor_4" [TTy "float"; TTy "vec4"; TIx 0; TIx 0; TIx 3; TIx 3] ["xxww"; "rraa"; "ssqq"];
  UM "shuffle_accessor_4" [TTy "float"; TTy "vec4"; TIx 1; TIx 0; TIx 3; TIx 3] ["yxww"; "graa"; "tsqq"];
  UM "shuffle_accessor_4" [TTy "float"; TTy "vec4"; TIx 2; TIx 0; TIx 3; TIx 3] ["zxww"; "braa"; "psqq"];
  UM "shuffle_accessor_4" [TTy "float"; TTy "vec4"; TIx 3; TIx 0; TIx 3; TIx 3] ["wxww"; "araa"; "qsqq"];
  UM "shuffle_accessor_4" [TTy "float"; TTy "vec4"; TIx 0; TIx 1; TIx 3; TIx 3] ["xyww"; "rgaa"; "stqq"];
  UM "shuffle_accessor_4" [TTy "float"; TTy "vec4"; TIx 1; TIx 1; TIx 3; TIx 3] ["yyww"; "ggaa"; "ttqq"];
  UM "shuffle_accessor_4" [TTy "float"; TTy "vec4"; TIx 2; TIx 1; TIx 3; TIx 3] ["zyww"; "bgaa"; "ptqq"];
  UM "shuffle_accessor_4" [TTy "float"; TTy "vec4"; TIx 3; TIx 1; TIx 3; TIx 3] ["wyww"; "agaa"; "qtqq"];
  UM "shuffle_accessor_4" [TTy "float"; TTy "vec4"; TIx 0; TIx 2; TIx 3; TIx 3] ["xzww"; "rbaa"; "spqq"];
  UM "shuffle_accessor_4" [TTy "float"; TTy "vec4"; TIx 1; TIx 2; TIx 3; TIx 3] ["yzww"; "gbaa"; "tpqq"];
  UM "shuffle_accessor_4" [TTy "float"; TTy "vec4"; TIx 2; TIx 2; TIx 3; TIx 3] ["zzww"; "bbaa"; "ppqq"];
  UM "shuffle_accessor_4" [TTy "float"; TTy "vec4"; TIx 3; TIx 2; TIx 3; TIx 3] ["wzww"; "abaa"; "qpqq"];
  UM "shuffle_accessor_4" [TTy "float"; TTy "vec4"; TIx 0; TIx 3; TIx 3; TIx 3] ["xwww"; "raaa"; "sqqq"];
  UM "shuffle_accessor_4" [TTy "float"; TTy "vec4"; TIx 1; TIx 3; TIx 3; TIx 3] ["ywww"; "gaaa"; "tqqq"];
  UM "shuffle_accessor_4" [TTy "float"; TTy "vec4"; TIx 2; TIx 3; TIx 3; TIx 3] ["zwww"; "baaa"; "pqqq"];
  UM "shuffle_accessor_4" [TTy "float"; TTy "vec4"; TIx 3; TIx 3; TIx 3; TIx 3] ["wwww"; "aaaa"; "qqqq"]].
(* ivec2.hpp 53-63 *)
Definition ivec2_union : aunion := Union "ivec2" "int32_t" 2 [
  UM "scalar_accessor_2i" [TTy "int32_t"; TIx 0] ["x"; "r"; "s"];
  UM "scalar_accessor_2i" [TTy "int32_t"; TIx 1] ["y"; "g"; "t"];
  UM "shuffle_accessor_2" [TTy "int32_t"; TTy "ivec2"; TIx 0; TIx 0] ["xx"; "rr"; "ss"];
  UM "shuffle_accessor_2" [TTy "int32_t"; TTy "ivec2"; TIx 1; TIx 0] ["yx"; "gr"; "ts"];
  UM "shuffle_accessor_2" [TTy "int32_t"; TTy "ivec2"; TIx 0; TIx 1] ["xy"; "rg"; "st"];
  UM "shuffle_accessor_2" [TTy "int32_t"; TTy "ivec2"; TIx 1; TIx 1] ["yy"; "gg"; "tt"]].
(* ivec3.hpp 57-102 *)
Definition ivec3_union : aunion := Union "ivec3" "int32_t" 3 [
  UM "scalar_accessor_3i" [TTy "int32_t"; TIx 0] ["x"; "r"; "s"];
  UM "scalar_accessor_3i" [TTy "int32_t"; TIx 1] ["y"; "g"; "t"];
  UM "scalar_accessor_3i" [TTy "int32_t"; TIx 2] ["z"; "b"; "p"];
  UM "shuffle_accessor_3" [TTy "int32_t"; TTy "ivec2"; TIx 0; TIx 0] ["xx"; "rr"; "ss"];
  UM "shuffle_accessor_3" [TTy "int32_t"; TTy "ivec2"; TIx 1; TIx 0] ["yx"; "gr"; "ts"];
  UM "shuffle_accessor_3" [TTy "int32_t"; TTy "ivec2"; TIx 2; TIx 0] ["zx"; "br"; "ps"];
  UM "shuffle_accessor_3" [TTy "int32_t"; TTy "ivec2"; TIx 0; TIx 1] ["xy"; "rg"; "st"];
  UM "shuffle_accessor_3" [TTy "int32_t"; TTy "ivec2"; TIx 1; TIx 1] ["yy"; "gg"; "tt"];
  UM "shuffle_accessor_3" [TTy "int32_t"; TTy "ivec2"; TIx 2; TIx 1] ["zy"; "bg"; "pt"];
  UM "shuffle_accessor_3" [TTy "int32_t"; TTy "ivec2"; TIx 0; TIx 2] ["xz"; "rb"; "sp"];
  UM "shuffle_accessor_3" [TTy "int32_t"; TTy "ivec2"; TIx 1; TIx 2] ["yz"; "gb"; "tp"];
  UM "shuffle_accessor_3" [TTy "int32_t"; TTy "ivec2"; TIx 2; TIx 2] ["zz"; "bb"; "pp"];
  UM "shuffle_accessor_3" [TTy "int32_t"; TTy "ivec3"; TIx 0; TIx 0; TIx 0] ["xxx"; "rrr"; "sss"];
  UM "shuffle_accessor_3" [TTy "int32_t"; TTy "ivec3"; TIx 1; TIx 0; TIx 0] ["yxx"; "grr"; "tss"];
  UM "shuffle_accessor_3" [TTy "int32_t"; TTy "ivec3"; TIx 2; TIx 0; TIx 0] ["zxx"; "brr"; "pss"];
  UM "shuffle_accessor_3" [TTy "int32_t"; TTy "ivec3"; TIx 0; TIx 1; TIx 0] ["xyx"; "rgr"; "sts"];
  UM "shuffle_accessor_3" [TTy "int32_t"; TTy "ivec3"; TIx 1; TIx 1; TIx 0] ["yyx"; "ggr"; "tts"];
  UM "shuffle_accessor_3" [TTy "int32_t"; TTy "ivec3"; TIx 2; TIx 1; TIx 0] ["zyx"; "bgr"; "pts"];
  UM "shuffle_accessor_3" [TTy "int32_t"; TTy "ivec3"; TIx 0; TIx 2; TIx 0] ["xzx"; "rbr"; "sps"];
  UM "shuffle_accessor_3" [TTy "int32_t"; TTy "ivec3"; TIx 1; TIx 2; TIx 0] ["yzx"; "gbr"; "tps"];
  UM "shuffle_accessor_3" [TTy "int32_t"; TTy "ivec3"; TIx 2; TIx 2; TIx 0] ["zzx"; "bbr"; "pps"];
  UM "shuffle_accessor_3" [TTy "int32_t"; TTy "ivec3"; TIx 0; TIx 0; TIx 1] ["xxy"; "rrg"; "sst"];
  UM "shuffle_accessor_3" [TTy "int32_t"; TTy "ivec3"; TIx 1; TIx 0; TIx 1] ["yxy"; "grg"; "tst"];
  UM "shuffle_accessor_3" [TTy "int32_t"; TTy "ivec3"; TIx 2; TIx 0; TIx 1] ["zxy"; "brg"; "pst"];
  UM "shuffle_accessor_3" [TTy "int32_t"; TTy "ivec3"; TIx 0; TIx 1; TIx 1] ["xyy"; "rgg"; "stt"];
  UM "shuffle_accessor_3" [TTy "int32_t"; TTy "ivec3"; TIx 1; TIx 1; TIx 1] ["yyy"; "ggg"; "ttt"];
  UM "shuffle_accessor_3" [TTy "int32_t"; TTy "ivec3"; TIx 2; TIx 1; TIx 1] ["zyy"; "bgg"; "ptt"];
  UM "shuffle_accessor_3" [TTy "int32_t"; TTy "ivec3"; TIx 0; TIx 2; TIx 1] ["xzy"; "rbg"; "spt"];
  UM "shuffle_accessor_3" [TTy "int32_t"; TTy "ivec3"; TIx 1; TIx 2; TIx 1] ["yzy"; "gbg"; "tpt"];
  UM "shuffle_accessor_3" [TTy "int32_t"; TTy "ivec3"; TIx 2; TIx 2; TIx 1] ["zzy"; "bbg"; "ppt"];
  UM "shuffle_accessor_3" [TTy "int32_t"; TTy "ivec3"; TIx 0; TIx 0; TIx 2] ["xxz"; "rrb"; "ssp"];
  UM "shuffle_accessor_3" [TTy "int32_t"; TTy "ivec3"; TIx 1; TIx 0; TIx 2] ["yxz"; "grb"; "tsp"];
  UM "shuffle_accessor_3" [TTy "int32_t"; TTy "ivec3"; TIx 2; TIx 0; TIx 2] ["zxz"; "brb"; "psp"];
  UM "shuffle_accessor_3" [TTy "int32_t"; TTy "ivec3"; TIx 0; TIx 1; TIx 2] ["xyz"; "rgb"; "stp"];
  UM "shuffle_accessor_3" [TTy "int32_t"; TTy "ivec3"; TIx 1; TIx 1; TIx 2] ["yyz"; "ggb"; "ttp"];
  UM "shuffle_accessor_3" [TTy "int32_t"; TTy "ivec3"; TIx 2; TIx 1; TIx 2] ["zyz"; "bgb"; "ptp"];
  UM "shuffle_accessor_3" [TTy "int32_t"; TTy "ivec3"; TIx 0; TIx 2; TIx 2] ["xzz"; "rbb"; "spp"];
  UM "shuffle_accessor_3" [TTy "int32_t"; TTy "ivec3"; TIx 1; TIx 2; TIx 2] ["yzz"; "gbb"; "tpp"];
  UM "shuffle_accessor_3" [TTy "int32_t"; TTy "ivec3"; TIx 2; TIx 2; TIx 2] ["zzz"; "bbb"; "ppp"]].
(* ivec4.hpp 62-410 *)
Definition ivec4_union : aunion := Union "ivec4" "int32_t" 4 [
  UM "scalar_accessor_4i" [TTy "int32_t"; TIx 0] ["x"; "r"; "s"];
  UM "scalar_accessor_4i" [TTy "int32_t"; TIx 1] ["y"; "g"; "t"];
  UM "scalar_accessor_4i" [TTy "int32_t"; TIx 2] ["z"; "b"; "p"];
  UM "scalar_accessor_4i" [TTy "int32_t"; TIx 3] ["w"; "a"; "q"];
  UM "shuffle_accessor_4" [TTy "int32_t"; TTy "ivec2"; TIx 0; TIx 0] ["xx"; "rr"; "ss"];
  UM "shuffle_accessor_4" [TTy "int32_t"; TTy "ivec2"; TIx 1; TIx 0] ["yx"; "gr"; "ts"];
  UM "shuffle_accessor_4" [TTy "int32_t"; TTy "ivec2"; TIx 2; TIx 0] ["zx"; "br"; "ps"];
  UM "shuffle_accessor_4" [TTy "int32_t"; TTy "ivec2"; TIx 3; TIx 0] ["wx"; "ar"; "qs"];
  UM "shuffle_accessor_4" [TTy "int32_t"; TTy "ivec2"; TIx 0; TIx 1] ["xy"; "rg"; "st"];
  UM "shuffle_accessor_4" [TTy "int32_t"; TTy "ivec2"; TIx 1; TIx 1] ["yy"; "gg"; "tt"];
  UM "shuffle_accessor_4" [TTy "int32_t"; TTy "ivec2"; TIx 2; TIx 1] ["zy"; "bg"; "pt"];
  UM "shuffle_accessor_4" [TTy "int32_t"; TTy "ivec2"; TIx 3; TIx 1] ["wy"; "ag"; "qt"];
  UM "shuffle_accessor_4" [TTy "int32_t"; TTy "ivec2"; TIx 0; TIx 2] ["xz"; "rb"; "sp"];
  UM "shuffle_accessor_4" [TTy "int32_t"; TTy "ivec2"; TIx 1; TIx 2] ["yz"; "gb"; "tp"];
  UM "shuffle_accessor_4" [TTy "int32_t"; TTy "ivec2"; TIx 2; TIx 2] ["zz"; "bb"; "pp"];
  UM "shuffle_accessor_4" [TTy "int32_t"; TTy "ivec2"; TIx 3; TIx 2] ["wz"; "ab"; "qp"];
  UM "shuffle_accessor_4" [TTy "int32_t"; TTy "ivec2"; TIx 0; TIx 3] ["xw"; "ra"; "sq"];
  UM "shuffle_accessor_4" [TTy "int32_t"; TTy "ivec2"; TIx 1; TIx 3] ["yw"; "ga"; "tq"];
  UM "shuffle_accessor_4" [TTy "int32_t"; TTy "ivec2"; TIx 2; TIx 3] ["zw"; "ba"; "pq"];
  UM "shuffle_accessor_4" [TTy "int32_t"; TTy "ivec2"; TIx 3; TIx 3] ["ww"; "aa"; "qq"];
  UM "shuffle_accessor_4" [TTy "int32_t"; TTy "ivec3"; TIx 0; TIx 0; TIx 0] ["xxx"; "rrr"; "sss"];
  UM "shuffle_accessor_4" [TTy "int32_t"; TTy "ivec3"; TIx 1; TIx 0; TIx 0] ["yxx"; "grr"; "tss"];
  UM "shuffle_accessor_4" [TTy "int32_t"; TTy "ivec3"; TIx 2; TIx 0; TIx 0] ["zxx"; "brr"; "pss"];
  UM "shuffle_accessor_4" [TTy "int32_t"; TTy "ivec3"; TIx 3; TIx 0; TIx 0] ["wxx"; "arr"; "qss"];
  UM "shuffle_accessor_4" [TTy "int32_t"; TTy "ivec3"; TIx 0; TIx 1; TIx 0] ["xyx"; "rgr"; "sts"];
  UM "shuffle_accessor_4" [TTy "int32_t"; TTy "ivec3"; TIx 1; TIx 1; TIx 0] ["yyx"; "ggr"; "tts"];
  UM "shuffle_accessor_4" [TTy "int32_t"; TTy "ivec3"; TIx 2; TIx 1; TIx 0] ["zyx"; "bgr"; "pts"];
  UM "shuffle_accessor_4" [TTy "int32_t"; TTy "ivec3"; TIx 3; TIx 1; TIx 0] ["wyx"; "agr"; "qts"];
  UM "shuffle_accessor_4" [TTy "int32_t"; TTy "ivec3"; TIx 0; TIx 2; TIx 0] ["xzx"; "rbr"; "sps"];
  UM "shuffle_accessor_4" [TTy "int32_t"; TTy "ivec3"; TIx 1; TIx 2; TIx 0] ["yzx"; "gbr"; "tps"];
  UM "shuffle_accessor_4" [TTy "int32_t"; TTy "ivec3"; TIx 2; TIx 2; TIx 0] ["zzx"; "bbr"; "pps"];
  UM "shuffle_accessor_4" [TTy "int32_t"; TTy "ivec3"; TIx 3; TIx 2; TIx 0] ["wzx"; "abr"; "qps"];
  UM "shuffle_accessor_4" [TTy "int32_t"; TTy "ivec3"; TIx 0; TIx 3; TIx 0] ["xwx"; "rar"; "sqs"];
  UM "shuffle_accessor_4" [TTy "int32_t"; TTy "ivec3"; TIx 1; TIx 3; TIx 0] ["ywx"; "gar"; "tqs"];
  UM "shuffle_accessor_4" [TTy "int32_t"; TTy "ivec3"; TIx 2; TIx 3; TIx 0] ["zwx"; "bar"; "pqs"];
  UM "shuffle_accessor_4" [TTy "int32_t"; TTy "ivec3"; TIx 3; TIx 3; TIx 0] ["wwx"; "aar"; "qqs"];
  UM "shuffle_accessor_4" [TTy "int32_t"; TTy "ivec3"; TIx 0; TIx 0; TIx 1] ["xxy"; "rrg"; "sst"];
  UM "shuffle_accessor_4" [TTy "int32_t"; TTy "ivec3"; TIx 1; TIx 0; TIx 1] ["yxy"; "grg"; "tst"];
  UM "shuffle_accessor_4" [TTy "int32_t"; TTy "ivec3"; TIx 2; TIx 0; TIx 1] ["zxy"; "brg"; "pst"];
  UM "shuffle_accessor_4" [TTy "int32_t"; TTy "ivec3"; TIx 3; TIx 0; TIx 1] ["wxy"; "arg"; "qst"];
  UM "shuffle_accessor_4" [TTy "int32_t"; TTy "ivec3"; TIx 0; TIx 1; TIx 1] ["xyy"; "rgg"; "stt"];
  UM "shuffle_accessor_4" [TTy "int32_t"; TTy "ivec3"; TIx 1; TIx 1; TIx 1] ["yyy"; "ggg"; "ttt"];
  UM "shuffle_accessor_4" [TTy "int32_t"; TTy "ivec3"; TIx 2; TIx 1; TIx 1] ["zyy"; "bgg"; "ptt"];
  UM "shuffle_accessor_4" [TTy "int32_t"; TTy "ivec3"; TIx 3; TIx 1; TIx 1] ["wyy"; "agg"; "qtt"];
  UM "shuffle_accessor_4" [TTy "int32_t"; TTy "ivec3"; TIx 0; TIx 2; TIx 1] ["xzy"; "rbg"; "spt"];
  UM "shuffle_accessor_4" [TTy "int32_t"; TTy "ivec3"; TIx 1; TIx 2; TIx 1] ["yzy"; "gbg"; "tpt"];
  UM "shuffle_accessor_4" [TTy "int32_t"; TTy "ivec3"; TIx 2; TIx 2; TIx 1] ["zzy"; "bbg"; "ppt"];
  UM "shuffle_accessor_4" [TTy "int32_t"; TTy "ivec3"; TIx 3; TIx 2; TIx 1] ["wzy"; "abg"; "qpt"];
  UM "shuffle_accessor_4" [TTy "int32_t"; TTy "ivec3"; TIx 0; TIx 3; TIx 1] ["xwy"; "rag"; "sqt"];
  UM "shuffle_accessor_4" [TTy "int32_t"; TTy "ivec3"; TIx 1; TIx 3; TIx 1] ["ywy"; "gag"; "tqt"];
  UM "shuffle_accessor_4" [TTy "int32_t"; TTy "ivec3"; TIx 2; TIx 3; TIx 1] ["zwy"; "bag"; "pqt"];
  UM "shuffle_accessor_4" [TTy "int32_t"; TTy "ivec3"; TIx 3; TIx 3; TIx 1] ["wwy"; "aag"; "qqt"];
  UM "shuffle_accessor_4" [TTy "int32_t"; TTy "ivec3"; TIx 0; TIx 0; TIx 2] ["xxz"; "rrb"; "ssp"];
  UM "shuffle_accessor_4" [TTy "int32_t"; TTy "ivec3"; TIx 1; TIx 0; TIx 2] ["yxz"; "grb"; "tsp"];
  UM "shuffle_accessor_4" [TTy "int32_t"; TTy "ivec3"; TIx 2; TIx 0; TIx 2] ["zxz"; "brb"; "psp"];
  UM "shuffle_accessor_4" [TTy "int32_t"; TTy "ivec3"; TIx 3; TIx 0; TIx 2] ["wxz"; "arb"; "qsp"];
  UM "shuffle_accessor_4" [TTy "int32_t"; TTy "ivec3"; TIx 0; TIx 1; TIx 2] ["xyz"; "rgb"; "stp"];
  UM "shuffle_accessor_4" [TTy "int32_t"; TTy "ivec3"; TIx 1; TIx 1; TIx 2] ["yyz"; "ggb"; "ttp"];
  UM "shuffle_accessor_4" [TTy "int32_t"; TTy "ivec3"; TIx 2; TIx 1; TIx 2] ["zyz"; "bgb"; "ptp"];
  UM "shuffle_accessor_4" [TTy "int32_t"; TTy "ivec3"; TIx 3; TIx 1; TIx 2] ["wyz"; "agb"; "qtp"];
  UM "shuffle_accessor_4" [TTy "int32_t"; TTy "ivec3"; TIx 0; TIx 2; TIx 2] ["xzz"; "rbb"; "spp"];
  UM "shuffle_accessor_4" [TTy "int32_t"; TTy "ivec3"; TIx 1; TIx 2; TIx 2] ["yzz"; "gbb"; "tpp"];
  UM "shuffle_accessor_4" [TTy "int32_t"; TTy "ivec3"; TIx 2; TIx 2; TIx 2] ["zzz"; "bbb"; "ppp"];
  UM "shuffle_accessor_4" [TTy "int32_t"; TTy "ivec3"; TIx 3; TIx 2; TIx 2] ["wzz"; "abb"; "qpp"];
  UM "shuffle_accessor_4" [TTy "int32_t"; TTy "ivec3"; TIx 0; TIx 3; TIx 2] ["xwz"; "rab"; "sqp"];
  UM "shuffle_accessor_4" [TTy "int32_t"; TTy "ivec3"; TIx 1; TIx 3; TIx 2] ["ywz"; "gab"; "tqp"];
  UM "shuffle_accessor_4" [TTy "int32_t"; TTy "ivec3"; TIx 2; TIx 3; TIx 2] ["zwz"; "bab"; "pqp"];
  UM "shuffle_accessor_4" [TTy "int32_t"; TTy "ivec3"; TIx 3; TIx 3; TIx 2] ["wwz"; "aab"; "qqp"];
  UM "shuffle_accessor_4" [TTy "int32_t"; TTy "ivec3"; TIx 0; TIx 0; TIx 3] ["xxw"; "rra"; "ssq"];
  UM "shuffle_accessor_4" [TTy "int32_t"; TTy "ivec3"; TIx 1; TIx 0; TIx 3] ["yxw"; "gra"; "tsq"];
  UM "shuffle_accessor_4" [TTy "int32_t"; TTy "ivec3"; TIx 2; TIx 0; TIx 3] ["zxw"; "bra"; "psq"];
  UM "shuffle_accessor_4" [TTy "int32_t"; TTy "ivec3"; TIx 3; TIx 0; TIx 3] ["wxw"; "ara"; "qsq"];
  UM "shuffle_accessor_4" [TTy "int32_t"; TTy "ivec3"; TIx 0; TIx 1; TIx 3] ["xyw"; "rga"; "stq"];
  UM "shuffle_accessor_4" [TTy "int32_t"; TTy "ivec3"; TIx 1; TIx 1; TIx 3] ["yyw"; "gga"; "ttq"];
  UM "shuffle_accessor_4" [TTy "int32_t"; TTy "ivec3"; TIx 2; TIx 1; TIx 3] ["zyw"; "bga"; "ptq"];
  UM "shuffle_accessor_4" [TTy "int32_t"; TTy "ivec3"; TIx 3; TIx 1; TIx 3] ["wyw"; "aga"; "qtq"];
  UM "shuffle_accessor_4" [TTy "int32_t"; TTy "ivec3"; TIx 0; TIx 2; TIx 3] ["xzw"; "rba"; "spq"];
  UM "shuffle_accessor_4" [TTy "int32_t"; TTy "ivec3"; TIx 1; TIx 2; TIx 3] ["yzw"; "gba"; "tpq"];
  UM "shuffle_accessor_4" [TTy "int32_t"; TTy "ivec3"; TIx 2; TIx 2; TIx 3] ["zzw"; "bba"; "ppq"];
  UM "shuffle_accessor_4" [TTy "int32_t"; TTy "ivec3"; TIx 3; TIx 2; TIx 3] ["wzw"; "aba"; "qpq"];
  UM "shuffle_accessor_4" [TTy "int32_t"; TTy "ivec3"; TIx 0; TIx 3; TIx 3] ["xww"; "raa"; "sqq"];
  UM "shuffle_accessor_4" [TTy "int32_t"; TTy "ivec3"; TIx 1; TIx 3; TIx 3] ["yww"; "gaa"; "tqq"];
  UM "shuffle_accessor_4" [TTy "int32_t"; TTy "ivec3"; TIx 2; TIx 3; TIx 3] ["zww"; "baa"; "pqq"];
  UM "shuffle_accessor_4" [TTy "int32_t"; TTy "ivec3"; TIx 3; TIx 3; TIx 3] ["www"; "aaa"; "qqq"];
  UM "shuffle_accessor_4" [TTy "int32_t"; TTy "ivec4"; TIx 0; TIx 0; TIx 0; TIx 0] ["xxxx"; "rrrr"; "ssss"];
  UM "shuffle_accessor_4" [TTy "int32_t"; TTy "ivec4"; TIx 1; TIx 0; TIx 0; TIx 0] ["yxxx"; "grrr"; "tsss"];
  UM "shuffle_accessor_4" [TTy "int32_t"; TTy "ivec4"; TIx 2; TIx 0; TIx 0; TIx 0] ["zxxx"; "brrr"; "psss"];
  UM "shuffle_accessor_4" [TTy "int32_t"; TTy "ivec4"; TIx 3; TIx 0; TIx 0; TIx 0] ["wxxx"; "arrr"; "qsss"];
  UM "shuffle_accessor_4" [TTy "int32_t"; TTy "ivec4"; TIx 0; TIx 1; TIx 0; TIx 0] ["xyxx"; "rgrr"; "stss"];
  UM "shuffle_accessor_4" [TTy "int32_t"; TTy "ivec4"; TIx 1; TIx 1; TIx 0; TIx 0] ["yyxx"; "ggrr"; "ttss"];
  UM "shuffle_accessor_4" [TTy "int32_t"; TTy "ivec4"; TIx 2; TIx 1; TIx 0; TIx 0] ["zyxx"; "bgrr"; "ptss"];
  UM "shuffle_accessor_4" [TTy "int32_t"; TTy "ivec4"; TIx 3; TIx 1; TIx 0; TIx 0] ["wyxx"; "agrr"; "qtss"];
  UM "shuffle_accessor_4" [TTy "int32_t"; TTy "ivec4"; TIx 0; TIx 2; TIx 0; TIx 0] ["xzxx"; "rbrr"; "spss"];
  UM "shuffle_accessor_4" [TTy "int32_t"; TTy "ivec4"; TIx 1; TIx 2; TIx 0; TIx 0] ["yzxx"; "gbrr"; "tpss"];
  UM "shuffle_accessor_4" [TTy "int32_t"; TTy "ivec4"; TIx 2; TIx 2; TIx 0; TIx 0] ["zzxx"; "bbrr"; "ppss"];
  UM "shuffle_accessor_4" [TTy "int32_t"; TTy "ivec4"; TIx 3; TIx 2; TIx 0; TIx 0] ["wzxx"; "abrr"; "qpss"];
  UM "shuffle_accessor_4" [TTy "int32_t"; TTy "ivec4"; TIx 0; TIx 3; TIx 0; TIx 0] ["xwxx"; "rarr"; "sqss"];
  UM "shuffle_accessor_4" [TTy "int32_t"; TTy "ivec4"; TIx 1; TIx 3; TIx 0; TIx 0] ["ywxx"; "garr"; "tqss"];
  UM "shuffle_accessor_4" [TTy "int32_t"; TTy "ivec4"; TIx 2; TIx 3; TIx 0; TIx 0] ["zwxx"; "barr"; "pqss"];
  UM "shuffle_accessor_4" [TTy "int32_t"; TTy "ivec4"; TIx 3; TIx 3; TIx 0; TIx 0] ["wwxx"; "aarr"; "qqss"];
  UM "shuffle_accessor_4" [TTy "int32_t"; TTy "ivec4"; TIx 0; TIx 0; TIx 1; TIx 0] ["xxyx"; "rrgr"; "ssts"];
  UM "shuffle_accessor_4" [TTy "int32_t"; TTy "ivec4"; TIx 1; TIx 0; TIx 1; TIx 0] ["yxyx"; "grgr"; "tsts"];
  UM "shuffle_accessor_4" [TTy "int32_t"; TTy "ivec4"; TIx 2; TIx 0; TIx 1; TIx 0] ["zxyx"; "brgr"; "psts"];
  UM "shuffle_accessor_4" [TTy "int32_t"; TTy "ivec4"; TIx 3; TIx 0; TIx 1; TIx 0] ["wxyx"; "argr"; "qsts"];
  UM "shuffle_accessor_4" [TTy "int32_t"; TTy "ivec4"; TIx 0; TIx 1; TIx 1; TIx 0] ["xyyx"; "rggr"; "stts"];
  UM "shuffle_accessor_4" [TTy "int32_t"; TTy "ivec4"; TIx 1; TIx 1; TIx 1; TIx 0] ["yyyx"; "gggr"; "ttts"];
  UM "shuffle_accessor_4" [TTy "int32_t"; TTy "ivec4"; TIx 2; TIx 1; TIx 1; TIx 0] ["zyyx"; "bggr"; "ptts"];
  UM "shuffle_accessor_4" [TTy "int32_t"; TTy "ivec4"; TIx 3; TIx 1; TIx 1; TIx 0] ["wyyx"; "aggr"; "qtts"];
  UM "shuffle_accessor_4" [TTy "int32_t"; TTy "ivec4"; TIx 0; TIx 2; TIx 1; TIx 0] ["xzyx"; "rbgr"; "spts"];
  UM "shuffle_accessor_4" [TTy "int32_t"; TTy "ivec4"; TIx 1; TIx 2; TIx 1; TIx 0] ["yzyx"; "gbgr"; "tpts"];
  UM "shuffle_accessor_4" [TTy "int32_t"; TTy "ivec4"; TIx 2; TIx 2; TIx 1; TIx 0] ["zzyx"; "bbgr"; "ppts"];
  UM "shuffle_accessor_4" [TTy "int32_t"; TTy "ivec4"; TIx 3; TIx 2; TIx 1; TIx 0] ["wzyx"; "abgr"; "qpts"];
  UM "shuffle_accessor_4" [TTy "int32_t"; TTy "ivec4"; TIx 0; TIx 3; TIx 1; TIx 0] ["xwyx"; "ragr"; "sqts"];
  UM "shuffle_accessor_4" [TTy "int32_t"; TTy "ivec4"; TIx 1; TIx 3; TIx 1; TIx 0] ["ywyx"; "gagr"; "tqts"];
  UM "shuffle_accessor_4" [TTy "int32_t"; TTy "ivec4"; TIx 2; TIx 3; TIx 1; TIx 0] ["zwyx"; "bagr"; "pqts"];
  UM "shuffle_accessor_4" [TTy "int32_t"; TTy "ivec4"; TIx 3; TIx 3; TIx 1; TIx 0] ["wwyx"; "aagr"; "qqts"];
  UM "shuffle_accessor_4" [TTy "int32_t"; TTy "ivec4"; TIx 0; TIx 0; TIx 2; TIx 0] ["xxzx"; "rrbr"; "ssps"];
  UM "shuffle_accessor_4" [TTy "int32_t"; TTy "ivec4"; TIx 1; TIx 0; TIx 2; TIx 0] ["yxzx"; "grbr"; "tsps"];
  UM "shuffle_accessor_4" [TTy "int32_t"; TTy "ivec4"; TIx 2; TIx 0; TIx 2; TIx 0] ["zxzx"; "brbr"; "psps"];
  UM "shuffle_accessor_4" [TTy "int32_t"; TTy "ivec4"; TIx 3; TIx 0; TIx 2; TIx 0] ["wxzx"; "arbr"; "qsps"];
  UM "shuffle_accessor_4" [TTy "int32_t"; TTy "ivec4"; TIx 0; TIx 1; TIx 2; TIx 0] ["xyzx"; "rgbr"; "stps"];
  UM "shuffle_accessor_4" [TTy "int32_t"; TTy "ivec4"; TIx 1; TIx 1; TIx 2; TIx 0] ["yyzx"; "ggbr"; "ttps"];
  UM "shuffle_accessor_4" [TTy "int32_t"; TTy "ivec4"; TIx 2; TIx 1; TIx 2; TIx 0] ["zyzx"; "bgbr"; "ptps"];
  UM "shuffle_accessor_4" [TTy "int32_t"; TTy "ivec4"; TIx 3; TIx 1; TIx 2; TIx 0] ["wyzx"; "agbr"; "qtps"];
  UM "shuffle_accessor_4" [TTy "int32_t"; TTy "ivec4"; TIx 0; TIx 2; TIx 2; TIx 0] ["xzzx"; "rbbr"; "spps"];
  UM "shuffle_accessor_4" [TTy "int32_t"; TTy "ivec4"; TIx 1; TIx 2; TIx 2; TIx 0] ["yzzx"; "gbbr"; "tpps"];
  UM "shuffle_accessor_4" [TTy "int32_t"; TTy "ivec4"; TIx 2; TIx 2; TIx 2; TIx 0] ["zzzx"; "bbbr"; "ppps"];
  UM "shuffle_accessor_4" [TTy "int32_t"; TTy "ivec4"; TIx 3; TIx 2; TIx 2; TIx 0] ["wzzx"; "abbr"; "qpps"];
  UM "shuffle_accessor_4" [TTy "int32_t"; TTy "ivec4"; TIx 0; TIx 3; TIx 2; TIx 0] ["xwzx"; "rabr"; "sqps"];
  UM "shuffle_accessor_4" [TTy "int32_t"; TTy "ivec4"; TIx 1; TIx 3; TIx 2; TIx 0] ["ywzx"; "gabr"; "tqps"];
  UM "shuffle_accessor_4" [TTy "int32_t"; TTy "ivec4"; TIx 2; TIx 3; TIx 2; TIx 0] ["zwzx"; "babr"; "pqps"];
  UM "shuffle_accessor_4" [TTy "int32_t"; TTy "ivec4"; TIx 3; TIx 3; TIx 2; TIx 0] ["wwzx"; "aabr"; "qqps"];
  UM "shuffle_accessor_4" [TTy "int32_t"; TTy "ivec4"; TIx 0; TIx 0; TIx 3; TIx 0] ["xxwx"; "rrar"; "ssqs"];
  UM "shuffle_accessor_4" [TTy "int32_t"; TTy "ivec4"; TIx 1; TIx 0; TIx 3; TIx 0] ["yxwx"; "grar"; "tsqs"];
  UM "shuffle_accessor_4" [TTy "int32_t"; TTy "ivec4"; TIx 2; TIx 0; TIx 3; TIx 0] ["zxwx"; "brar"; "psqs"];
  UM "shuffle_accessor_4" [TTy "int32_t"; TTy "ivec4"; TIx 3; TIx 0; TIx 3; TIx 0] ["wxwx"; "arar"; "qsqs"];
  UM "shuffle_accessor_4" [TTy "int32_t"; TTy "ivec4"; TIx 0; TIx 1; TIx 3; TIx 0] ["xywx"; "rgar"; "stqs"];
  UM "shuffle_accessor_4" [TTy "int32_t"; TTy "ivec4"; TIx 1; TIx 1; TIx 3; TIx 0] ["yywx"; "ggar"; "ttqs"];
  UM "shuffle_accessor_4" [TTy "int32_t"; TTy "ivec4"; TIx 2; TIx 1; TIx 3; TIx 0] ["zywx"; "bgar"; "ptqs"];
  UM "shuffle_accessor_4" [TTy "int32_t"; TTy "ivec4"; TIx 3; TIx 1; TIx 3; TIx 0] ["wywx"; "agar"; "qtqs"];
  UM "shuffle_accessor_4" [TTy "int32_t"; TTy "ivec4"; TIx 0; TIx 2; TIx 3; TIx 0] ["xzwx"; "rbar"; "spqs"];
  UM "shuffle_accessor_4" [TTy "int32_t"; TTy "ivec4"; TIx 1; TIx 2; TIx 3; TIx 0] ["yzwx"; "gbar"; "tpqs"];
  UM "shuffle_accessor_4" [TTy "int32_t"; TTy "ivec4"; TIx 2; TIx 2; TIx 3; TIx 0] ["zzwx"; "bbar"; "ppqs"];
  UM "shuffle_accessor_4" [TTy "int32_t"; TTy "ivec4"; TIx 3; TIx 2; TIx 3; TIx 0] ["wzwx"; "abar"; "qpqs"];
  UM "shuffle_accessor_4" [TTy "int32_t"; TTy "ivec4"; TIx 0; TIx 3; TIx 3; TIx 0] ["xwwx"; "raar"; "sqqs"];
  UM "shuffle_accessor_4" [TTy "int32_t"; TTy "ivec4"; TIx 1; TIx 3; TIx 3; TIx 0] ["ywwx"; "gaar"; "tqqs"];
  UM "shuffle_accessor_4" [TTy "int32_t"; TTy "ivec4"; TIx 2; TIx 3; TIx 3; TIx 0] ["zwwx"; "baar"; "pqqs"];
  UM "shuffle_accessor_4" [TTy "int32_t"; TTy "ivec4"; TIx 3; TIx 3; TIx 3; TIx 0] ["wwwx"; "aaar"; "qqqs"];
  UM "shuffle_accessor_4" [TTy "int32_t"; TTy "ivec4"; TIx 0; TIx 0; TIx 0; TIx 1] ["xxxy"; "rrrg"; "ssst"];
  UM "shuffle_accessor_4" [TTy "int32_t"; TTy "ivec4"; TIx 1; TIx 0; TIx 0; TIx 1] ["yxxy"; "grrg"; "tsst"];
  UM "shuffle_accessor_4" [TTy "int32_t"; TTy "ivec4"; TIx 2; TIx 0; TIx 0; TIx 1] ["zxxy"; "brrg"; "psst"];
  UM "shuffle_accessor_4" [TTy "int32_t"; TTy "ivec4"; TIx 3; TIx 0; TIx 0; TIx 1] ["wxxy"; "arrg"; "qsst"];
  UM "shuffle_accessor_4" [TTy "int32_t"; TTy "ivec4"; TIx 0; TIx 1; TIx 0; TIx 1] ["xyxy"; "rgrg"; "stst"];
  UM "shuffle_accessor_4" [TTy "int32_t"; TTy "ivec4"; TIx 1; TIx 1; TIx 0; TIx 1] ["yyxy"; "ggrg"; "ttst"];
  UM "shuffle_accessor_4" [TTy "int32_t"; TTy "ivec4"; TIx 2; TIx 1; TIx 0; TIx 1] ["zyxy"; "bgrg"; "ptst"];
  UM "shuffle_accessor_4" [TTy "int32_t"; TTy "ivec4"; TIx 3; TIx 1; TIx 0; TIx 1] ["wyxy"; "agrg"; "qtst"];
  UM "shuffle_accessor_4" [TTy "int32_t"; TTy "ivec4"; TIx 0; TIx 2; TIx 0; TIx 1] ["xzxy"; "rbrg"; "spst"];
  UM "shuffle_accessor_4" [TTy "int32_t"; TTy "ivec4"; TIx 1; TIx 2; TIx 0; TIx 1] ["yzxy"; "gbrg"; "tpst"];
  UM "shuffle_accessor_4" [TTy "int32_t"; TTy "ivec4"; TIx 2; TIx 2; TIx 0; TIx 1] ["zzxy"; "bbrg"; "ppst"];
  UM "shuffle_accessor_4" [TTy "int32_t"; TTy "ivec4"; TIx 3; TIx 2; TIx 0; TIx 1] ["wzxy"; "abrg"; "qpst"];
  UM "shuffle_accessor_4" [TTy "int32_t"; TTy "ivec4"; TIx 0; TIx 3; TIx 0; TIx 1] ["xwxy"; "rarg"; "sqst"];
  UM "shuffle_accessor_4" [TTy "int32_t"; TTy "ivec4"; TIx 1; TIx 3; TIx 0; TIx 1] ["ywxy"; "garg"; "tqst"];
  UM "shuffle_accessor_4" [TTy "int32_t"; TTy "ivec4"; TIx 2; TIx 3; TIx 0; TIx 1] ["zwxy"; "barg"; "pqst"];
  UM "shuffle_accessor_4" [TTy "int32_t"; TTy "ivec4"; TIx 3; TIx 3; TIx 0; TIx 1] ["wwxy"; "aarg"; "qqst"];
  UM "shuffle_accessor_4" [TTy "int32_t"; TTy "ivec4"; TIx 0; TIx 0; TIx 1; TIx 1] ["xxyy"; "rrgg"; "sstt"];
  UM "shuffle_accessor_4" [TTy "int32_t"; TTy "ivec4"; TIx 1; TIx 0; TIx 1; TIx 1] ["yxyy"; "grgg"; "tstt"];
  UM "shuffle_accessor_4" [TTy "int32_t"; TTy "ivec4"; TIx 2; TIx 0; TIx 1; TIx 1] ["zxyy"; "brgg"; "pstt"];
  UM "shuffle_accessor_4" [TTy "int32_t"; TTy "ivec4"; TIx 3; TIx 0; TIx 1; TIx 1] ["wxyy"; "argg"; "qstt"];
  UM "shuffle_accessor_4" [TTy "int32_t"; TTy "ivec4"; TIx 0; TIx 1; TIx 1; TIx 1] ["xyyy"; "rggg"; "sttt"];
  UM "shuffle_accessor_4" [TTy "int32_t"; TTy "ivec4"; TIx 1; TIx 1; TIx 1; TIx 1] ["yyyy"; "gggg"; "tttt"];
  UM "shuffle_accessor_4" [TTy "int32_t"; TTy "ivec4"; TIx 2; TIx 1; TIx 1; TIx 1] ["zyyy"; "bggg"; "pttt"];
  UM "shuffle_accessor_4" [TTy "int32_t"; TTy "ivec4"; TIx 3; TIx 1; TIx 1; TIx 1] ["wyyy"; "aggg"; "qttt"];
  UM "shuffle_accessor_4" [TTy "int32_t"; TTy "ivec4"; TIx 0; TIx 2; TIx 1; TIx 1] ["xzyy"; "rbgg"; "sptt"];
  UM "shuffle_accessor_4" [TTy "int32_t"; TTy "ivec4"; TIx 1; TIx 2; TIx 1; TIx 1] ["yzyy"; "gbgg"; "tptt"];
  UM "shuffle_accessor_4" [TTy "int32_t"; TTy "ivec4"; TIx 2; TIx 2; TIx 1; TIx 1] ["zzyy"; "bbgg"; "pptt"];
  UM "shuffle_accessor_4" [TTy "int32_t"; TTy "ivec4"; TIx 3; TIx 2; TIx 1; TIx 1] ["wzyy"; "abgg"; "qptt"];
  UM "shuffle_accessor_4" [TTy "int32_t"; TTy "ivec4"; TIx 0; TIx 3; TIx 1; TIx 1] ["xwyy"; "ragg"; "sqtt"];
  UM "shuffle_accessor_4" [TTy "int32_t"; TTy "ivec4"; TIx 1; TIx 3; TIx 1; TIx 1] ["ywyy"; "gagg"; "tqtt"];
  UM "shuffle_accessor_4" [TTy "int32_t"; TTy "ivec4"; TIx 2; TIx 3; TIx 1; TIx 1] ["zwyy"; "bagg"; "pqtt"];
  UM "shuffle_accessor_4" [TTy "int32_t"; TTy "ivec4"; TIx 3; TIx 3; TIx 1; TIx 1] ["wwyy"; "aagg"; "qqtt"];
  UM "shuffle_accessor_4" [TTy "int32_t"; TTy "ivec4"; TIx 0; TIx 0; TIx 2; TIx 1] ["xxzy"; "rrbg"; "sspt"];
  UM "shuffle_accessor_4" [TTy "int32_t"; TTy "ivec4"; TIx 1; TIx 0; TIx 2; TIx 1] ["yxzy"; "grbg"; "tspt"];
  UM "shuffle_accessor_4" [TTy "int32_t"; TTy "ivec4"; TIx 2; TIx 0; TIx 2; TIx 1] ["zxzy"; "brbg"; "pspt"];
  UM "shuffle_accessor_4" [TTy "int32_t"; TTy "ivec4"; TIx 3; TIx 0; TIx 2; TIx 1] ["wxzy"; "arbg"; "qspt"];
  UM "shuffle_accessor_4" [TTy "int32_t"; TTy "ivec4"; TIx 0; TIx 1; TIx 2; TIx 1] ["xyzy"; "rgbg"; "stpt"];
  UM "shuffle_accessor_4" [TTy "int32_t"; TTy "ivec4"; TIx 1; TIx 1; TIx 2; TIx 1] ["yyzy"; "ggbg"; "ttpt"];
  UM "shuffle_accessor_4" [TTy "int32_t"; TTy "ivec4"; TIx 2; TIx 1; TIx 2; TIx 1] ["zyzy"; "bgbg"; "ptpt"];
  UM "shuffle_accessor_4" [TTy "int32_t"; TTy "ivec4"; TIx 3; TIx 1; TIx 2; TIx 1] ["wyzy"; "agbg"; "qtpt"];
  UM "shuffle_accessor_4" [TTy "int32_t"; TTy "ivec4"; TIx 0; TIx 2; TIx 2; TIx 1] ["xzzy"; "rbbg"; "sppt"];
  UM "shuffle_accessor_4" [TTy "int32_t"; TTy "ivec4"; TIx 1; TIx 2; TIx 2; TIx 1] ["yzzy"; "gbbg"; "tppt"];
  UM "shuffle_accessor_4" [TTy "int32_t"; TTy "ivec4"; TIx 2; TIx 2; TIx 2; TIx 1] ["zzzy"; "bbbg"; "pppt"];
  UM "shuffle_accessor_4" [TTy "int32_t"; TTy "ivec4"; TIx 3; TIx 2; TIx 2; TIx 1] ["wzzy"; "abbg"; "qppt"];
  UM "shuffle_accessor_4" [TTy "int32_t"; TTy "ivec4"; TIx 0; TIx 3; TIx 2; TIx 1] ["xwzy"; "rabg"; "sqpt"];
  UM "shuffle_accessor_4" [TTy "int32_t"; TTy "ivec4"; TIx 1; TIx 3; TIx 2; TIx 1] ["ywzy"; "gabg"; "tqpt"];
  UM "shuffle_accessor_4" [TTy "int32_t"; TTy "ivec4"; TIx 2; TIx 3; TIx 2; TIx 1] ["zwzy"; "babg"; "pqpt"];
  UM "shuffle_accessor_4" [TTy "int32_t"; TTy "ivec4"; TIx 3; TIx 3; TIx 2; TIx 1] ["wwzy"; "aabg"; "qqpt"];
  UM "shuffle_accessor_4" [TTy "int32_t"; TTy "ivec4"; TIx 0; TIx 0; TIx 3; TIx 1] ["xxwy"; "rrag"; "ssqt"];
  UM "shuffle_accessor_4" [TTy "int32_t"; TTy "ivec4"; TIx 1; TIx 0; TIx 3; TIx 1] ["yxwy"; "grag"; "tsqt"];
  UM "shuffle_accessor_4" [TTy "int32_t"; TTy "ivec4"; TIx 2; TIx 0; TIx 3; TIx 1] ["zxwy"; "brag"; "psqt"];
  UM "shuffle_accessor_4" [TTy "int32_t"; TTy "ivec4"; TIx 3; TIx 0; TIx 3; TIx 1] ["wxwy"; "arag"; "qsqt"];
  UM "shuffle_accessor_4" [TTy "int32_t"; TTy "ivec4"; TIx 0; TIx 1; TIx 3; TIx 1] ["xywy"; "rgag"; "stqt"];
  UM "shuffle_accessor_4" [TTy "int32_t"; TTy "ivec4"; TIx 1; TIx 1; TIx 3; TIx 1] ["yywy"; "ggag"; "ttqt"];
  UM "shuffle_accessor_4" [TTy "int32_t"; TTy "ivec4"; TIx 2; TIx 1; TIx 3; TIx 1] ["zywy"; "bgag"; "ptqt"];
  UM "shuffle_accessor_4" [TTy "int32_t"; TTy "ivec4"; TIx 3; TIx 1; TIx 3; TIx 1] ["wywy"; "agag"; "qtqt"];
  UM "shuffle_accessor_4" [TTy "int32_t"; TTy "ivec4"; TIx 0; TIx 2; TIx 3; TIx 1] ["xzwy"; "rbag"; "spqt"];
  UM "shuffle_accessor_4" [TTy "int32_t"; TTy "ivec4"; TIx 1; TIx 2; TIx 3; TIx 1] ["yzwy"; "gbag"; "tpqt"];
  UM "shuffle_accessor_4" [TTy "int32_t"; TTy "ivec4"; TIx 2; TIx 2; TIx 3; TIx 1] ["zzwy"; "bbag"; "ppqt"];
  UM "shuffle_accessor_4" [TTy "int32_t"; TTy "ivec4"; TIx 3; TIx 2; TIx 3; TIx 1] ["wzwy"; "abag"; "qpqt"];
  UM "shuffle_accessor_4" [TTy "int32_t"; TTy "ivec4"; TIx 0; TIx 3; TIx 3; TIx 1] ["xwwy"; "raag"; "sqqt"];
  UM "shuffle_accessor_4" [TTy "int32_t"; TTy "ivec4"; TIx 1; TIx 3; TIx 3; TIx 1] ["ywwy"; "gaag"; "tqqt"];
  UM "shuffle_accessor_4" [TTy "int32_t"; TTy "ivec4"; TIx 2; TIx 3; TIx 3; TIx 1] ["zwwy"; "baag"; "pqqt"];
  UM "shuffle_accessor_4" [TTy "int32_t"; TTy "ivec4"; TIx 3; TIx 3; TIx 3; TIx 1] ["wwwy"; "aaag"; "qqqt"];
  UM "shuffle_accessor_4" [TTy "int32_t"; TTy "ivec4"; TIx 0; TIx 0; TIx 0; TIx 2] ["xxxz"; "rrrb"; "sssp"];
  UM "shuffle_accessor_4" [TTy "int32_t"; TTy "ivec4"; TIx 1; TIx 0; TIx 0; TIx 2] ["yxxz"; "grrb"; "tssp"];
  UM "shuffle_accessor_4" [TTy "int32_t"; TTy "ivec4"; TIx 2; TIx 0; TIx 0; TIx 2] ["zxxz"; "brrb"; "pssp"];
  UM "shuffle_accessor_4" [TTy "int32_t"; TTy "ivec4"; TIx 3; TIx 0; TIx 0; TIx 2] ["wxxz"; "arrb"; "qssp"];
  UM "shuffle_accessor_4" [TTy "int32_t"; TTy "ivec4"; TIx 0; TIx 1; TIx 0; TIx 2] ["xyxz"; "rgrb"; "stsp"];
  UM "shuffle_accessor_4" [TTy "int32_t"; TTy "ivec4"; TIx 1; TIx 1; TIx 0; TIx 2] ["yyxz"; "ggrb"; "ttsp"];
  UM "shuffle_accessor_4" [TTy "int32_t"; TTy "ivec4"; TIx 2; TIx 1; TIx 0; TIx 2] ["zyxz"; "bgrb"; "ptsp"];
  UM "shuffle_accessor_4" [TTy "int32_t"; TTy "ivec4"; TIx 3; TIx 1; TIx 0; TIx 2] ["wyxz"; "agrb"; "qtsp"];
  UM "shuffle_accessor_4" [TTy "int32_t"; TTy "ivec4"; TIx 0; TIx 2; TIx 0; TIx 2] ["xzxz"; "rbrb"; "spsp"];
  UM "shuffle_accessor_4" [TTy "int32_t"; TTy "ivec4"; TIx 1; TIx 2; TIx 0; TIx 2] ["yzxz"; "gbrb"; "tpsp"];
  UM "shuffle_accessor_4" [TTy "int32_t"; TTy "ivec4"; TIx 2; TIx 2; TIx 0; TIx 2] ["zzxz"; "bbrb"; "ppsp"];
  UM "shuffle_accessor_4" [TTy "int32_t"; TTy "ivec4"; TIx 3; TIx 2; TIx 0; TIx 2] ["wzxz"; "abrb"; "qpsp"];
  UM "shuffle_accessor_4" [TTy "int32_t"; TTy "ivec4"; TIx 0; TIx 3; TIx 0; TIx 2] ["xwxz"; "rarb"; "sqsp"];
  UM "shuffle_accessor_4" [TTy "int32_t"; TTy "ivec4"; TIx 1; TIx 3; TIx 0; TIx 2] ["ywxz"; "garb"; "tqsp"];
  UM "shuffle_accessor_4" [TTy "int32_t"; TTy "ivec4"; TIx 2; TIx 3; TIx 0; TIx 2] ["zwxz"; "barb"; "pqsp"];
  UM "shuffle_accessor_4" [TTy "int32_t"; TTy "ivec4"; TIx 3; TIx 3; TIx 0; TIx 2] ["wwxz"; "aarb"; "qqsp"];
  UM "shuffle_accessor_4" [TTy "int32_t"; TTy "ivec4"; TIx 0; TIx 0; TIx 1; TIx 2] ["xxyz"; "rrgb"; "sstp"];
  UM "shuffle_accessor_4" [TTy "int32_t"; TTy "ivec4"; TIx 1; TIx 0; TIx 1; TIx 2] ["yxyz"; "grgb"; "tstp"];
  UM "shuffle_accessor_4" [TTy "int32_t"; TTy "ivec4"; TIx 2; TIx 0; TIx 1; TIx 2] ["zxyz"; "brgb"; "pstp"];
  UM "shuffle_accessor_4" [TTy "int32_t"; TTy "ivec4"; TIx 3; TIx 0; TIx 1; TIx 2] ["wxyz"; "argb"; "qstp"];
  UM "shuffle_accessor_4" [TTy "int32_t"; TTy "ivec4"; TIx 0; TIx 1; TIx 1; TIx 2] ["xyyz"; "rggb"; "sttp"];
  UM "shuffle_accessor_4" [TTy "int32_t"; TTy "ivec4"; TIx 1; TIx 1; TIx 1; TIx 2] ["yyyz"; "gggb"; "tttp"];
  UM "shuffle_accessor_4" [TTy "int32_t"; TTy "ivec4"; TIx 2; TIx 1; TIx 1; TIx 2] ["zyyz"; "bggb"; "pttp"];
  UM "shuffle_accessor_4" [TTy "int32_t"; TTy "ivec4"; TIx 3; TIx 1; TIx 1; TIx 2] ["wyyz"; "aggb"; "qttp"];
  UM "shuffle_accessor_4" [TTy "int32_t"; TTy "ivec4"; TIx 0; TIx 2; TIx 1; TIx 2] ["xzyz"; "rbgb"; "sptp"];
  UM "shuffle_accessor_4" [TTy "int32_t"; TTy "ivec4"; TIx 1; TIx 2; TIx 1; TIx 2] ["yzyz"; "gbgb"; "tptp"];
  UM "shuffle_accessor_4" [TTy "int32_t"; TTy "ivec4"; TIx 2; TIx 2; TIx 1; TIx 2] ["zzyz"; "bbgb"; "pptp"];
  UM "shuffle_accessor_4" [TTy "int32_t"; TTy "ivec4"; TIx 3; TIx 2; TIx 1; TIx 2] ["wzyz"; "abgb"; "qptp"];
  UM "shuffle_accessor_4" [TTy "int32_t"; TTy "ivec4"; TIx 0; TIx 3; TIx 1; TIx 2] ["xwyz"; "ragb"; "sqtp"];
  UM "shuffle_accessor_4" [TTy "int32_t"; TTy "ivec4"; TIx 1; TIx 3; TIx 1; TIx 2] ["ywyz"; "gagb"; "tqtp"];
  UM "shuffle_accessor_4" [TTy "int32_t"; TTy "ivec4"; TIx 2; TIx 3; TIx 1; TIx 2] ["zwyz"; "bagb"; "pqtp"];
  UM "shuffle_accessor_4" [TTy "int32_t"; TTy "ivec4"; TIx 3; TIx 3; TIx 1; TIx 2] ["wwyz"; "aagb"; "qqtp"];
  UM "shuffle_accessor_4" [TTy "int32_t"; TTy "ivec4"; TIx 0; TIx 0; TIx 2; TIx 2] ["xxzz"; "rrbb"; "sspp"];
  UM "shuffle_accessor_4" [TTy "int32_t"; TTy "ivec4"; TIx 1; TIx 0; TIx 2; TIx 2] ["yxzz"; "grbb"; "tspp"];
  UM "shuffle_accessor_4" [TTy "int32_t"; TTy "ivec4"; TIx 2; TIx 0; TIx 2; TIx 2] ["zxzz"; "brbb"; "pspp"];
  UM "shuffle_accessor_4" [TTy "int32_t"; TTy "ivec4"; TIx 3; TIx 0; TIx 2; TIx 2] ["wxzz"; "arbb"; "qspp"];
  UM "shuffle_accessor_4" [TTy "int32_t"; TTy "ivec4"; TIx 0; TIx 1; TIx 2; TIx 2] ["xyzz"; "rgbb"; "stpp"];
  UM "shuffle_accessor_4" [TTy "int32_t"; TTy "ivec4"; TIx 1; TIx 1; TIx 2; TIx 2] ["yyzz"; "ggbb"; "ttpp"];
  UM "shuffle_accessor_4" [TTy "int32_t"; TTy "ivec4"; TIx 2; TIx 1; TIx 2; TIx 2] ["zyzz"; "bgbb"; "ptpp"];
  UM "shuffle_accessor_4" [TTy "int32_t"; TTy "ivec4"; TIx 3; TIx 1; TIx 2; TIx 2] ["wyzz"; "agbb"; "qtpp"];
  UM "shuffle_accessor_4" [TTy "int32_t"; TTy "ivec4"; TIx 0; TIx 2; TIx 2; TIx 2] ["xzzz"; "rbbb"; "sppp"];
  UM "shuffle_accessor_4" [TTy "int32_t"; TTy "ivec4"; TIx 1; TIx 2; TIx 2; TIx 2] ["yzzz"; "gbbb"; "tppp"];
  UM "shuffle_accessor_4" [TTy "int32_t"; TTy "ivec4"; TIx 2; TIx 2; TIx 2; TIx 2] ["zzzz"; "bbbb"; "pppp"];
  UM "shuffle_accessor_4" [TTy "int32_t"; TTy "ivec4"; TIx 3; TIx 2; TIx 2; TIx 2] ["wzzz"; "abbb"; "qppp"];
  UM "shuffle_accessor_4" [TTy "int32_t"; TTy "ivec4"; TIx 0; TIx 3; TIx 2; TIx 2] ["xwzz"; "rabb"; "sqpp"];
  UM "shuffle_accessor_4" [TTy "int32_t"; TTy "ivec4"; TIx 1; TIx 3; TIx 2; TIx 2] ["ywzz"; "gabb"; "tqpp"];
  UM "shuffle_accessor_4" [TTy "int32_t"; TTy "ivec4"; TIx 2; TIx 3; TIx 2; TIx 2] ["zwzz"; "babb"; "pqpp"];
  UM "shuffle_accessor_4" [TTy "int32_t"; TTy "ivec4"; TIx 3; TIx 3; TIx 2; TIx 2] ["wwzz"; "aabb"; "qqpp"];
  UM "shuffle_accessor_4" [TTy "int32_t"; TTy "ivec4"; TIx 0; TIx 0; TIx 3; TIx 2] ["xxwz"; "rrab"; "ssqp"];
  UM "shuffle_accessor_4" [TTy "int32_t"; TTy "ivec4"; TIx 1; TIx 0; TIx 3; TIx 2] ["yxwz"; "grab"; "tsqp"];
  UM "shuffle_accessor_4" [TTy "int32_t"; TTy "ivec4"; TIx 2; TIx 0; TIx 3; TIx 2] ["zxwz"; "brab"; "psqp"];
  UM "shuffle_accessor_4" [TTy "int32_t"; TTy "ivec4"; TIx 3; TIx 0; TIx 3; TIx 2] ["wxwz"; "arab"; "qsqp"];
  UM "shuffle_accessor_4" [TTy "int32_t"; TTy "ivec4"; TIx 0; TIx 1; TIx 3; TIx 2] ["xywz"; "rgab"; "stqp"];
  UM "shuffle_accessor_4" [TTy "int32_t"; TTy "ivec4"; TIx 1; TIx 1; TIx 3; TIx 2] ["yywz"; "ggab"; "ttqp"];
  UM "shuffle_accessor_4" [TTy "int32_t"; TTy "ivec4"; TIx 2; TIx 1; TIx 3; TIx 2] ["zywz"; "bgab"; "ptqp"];
  UM "shuffle_accessor_4" [TTy "int32_t"; TTy "ivec4"; TIx 3; TIx 1; TIx 3; TIx 2] ["wywz"; "agab"; "qtqp"];
  UM "shuffle_accessor_4" [TTy "int32_t"; TTy "ivec4"; TIx 0; TIx 2; TIx 3; TIx 2] ["xzwz"; "rbab"; "spqp"];
  UM "shuffle_accessor_4" [TTy "int32_t"; TTy "ivec4"; TIx 1; TIx 2; TIx 3; TIx 2] ["yzwz"; "gbab"; "tpqp"];
  UM "shuffle_accessor_4" [TTy "int32_t"; TTy "ivec4"; TIx 2; TIx 2; TIx 3; TIx 2] ["zzwz"; "bbab"; "ppqp"];
  UM "shuffle_accessor_4" [TTy "int32_t"; TTy "ivec4"; TIx 3; TIx 2; TIx 3; TIx 2] ["wzwz"; "abab"; "qpqp"];
  UM "shuffle_accessor_4" [TTy "int32_t"; TTy "ivec4"; TIx 0; TIx 3; TIx 3; TIx 2] ["xwwz"; "raab"; "sqqp"];
  UM "shuffle_accessor_4" [TTy "int32_t"; TTy "ivec4"; TIx 1; TIx 3; TIx 3; TIx 2] ["ywwz"; "gaab"; "tqqp"];
  UM "shuffle_accessor_4" [TTy "int32_t"; TTy "ivec4"; TIx 2; TIx 3; TIx 3; TIx 2] ["zwwz"; "baab"; "pqqp"];
  UM "shuffle_accessor_4" [TTy "int32_t"; TTy "ivec4"; TIx 3; TIx 3; TIx 3; TIx 2] ["wwwz"; "aaab"; "qqqp"];
  UM "shuffle_accessor_4" [TTy "int32_t"; TTy "ivec4"; TIx 0; TIx 0; TIx 0; TIx 3] ["xxxw"; "rrra"; "sssq"];
  UM "shuffle_accessor_4" [TTy "int32_t"; TTy "ivec4"; TIx 1; TIx 0; TIx 0; TIx 3] ["yxxw"; "grra"; "tssq"];
  UM "shuffle_accessor_4" [TTy "int32_t"; TTy "ivec4"; TIx 2; TIx 0; TIx 0; TIx 3] ["zxxw"; "brra"; "pssq"];
  UM "shuffle_accessor_4" [TTy "int32_t"; TTy "ivec4"; TIx 3; TIx 0; TIx 0; TIx 3] ["wxxw"; "arra"; "qssq"];
  UM "shuffle_accessor_4" [TTy "int32_t"; TTy "ivec4"; TIx 0; TIx 1; TIx 0; TIx 3] ["xyxw"; "rgra"; "stsq"];
  UM "shuffle_accessor_4" [TTy "int32_t"; TTy "ivec4"; TIx 1; TIx 1; TIx 0; TIx 3] ["yyxw"; "ggra"; "ttsq"];
  UM "shuffle_accessor_4" [TTy "int32_t"; TTy "ivec4"; TIx 2; TIx 1; TIx 0; TIx 3] ["zyxw"; "bgra"; "ptsq"];
  UM "shuffle_accessor_4" [TTy "int32_t"; TTy "ivec4"; TIx 3; TIx 1; TIx 0; TIx 3] ["wyxw"; "agra"; "qtsq"];
  UM "shuffle_accessor_4" [TTy "int32_t"; TTy "ivec4"; TIx 0; TIx 2; TIx 0; TIx 3] ["xzxw"; "rbra"; "spsq"];
  UM "shuffle_accessor_4" [TTy "int32_t"; TTy "ivec4"; TIx 1; TIx 2; TIx 0; TIx 3] ["yzxw"; "gbra"; "tpsq"];
  UM "shuffle_accessor_4" [TTy "int32_t"; TTy "ivec4"; TIx 2; TIx 2; TIx 0; TIx 3] ["zzxw"; "bbra"; "ppsq"];
  UM "shuffle_accessor_4" [TTy "int32_t"; TTy "ivec4"; TIx 3; TIx 2; TIx 0; TIx 3] ["wzxw"; "abra"; "qpsq"];
  UM "shuffle_accessor_4" [TTy "int32_t"; TTy "ivec4"; TIx 0; TIx 3; TIx 0; TIx 3] ["xwxw"; "rara"; "sqsq"];
  UM "shuffle_accessor_4" [TTy "int32_t"; TTy "ivec4"; TIx 1; TIx 3; TIx 0; TIx 3] ["ywxw"; "gara"; "tqsq"];
  UM "shuffle_accessor_4" [TTy "int32_t"; TTy "ivec4"; TIx 2; TIx 3; TIx 0; TIx 3] ["zwxw"; "bara"; "pqsq"];
  UM "shuffle_accessor_4" [TTy "int32_t"; TTy "ivec4"; TIx 3; TIx 3; TIx 0; TIx 3] ["wwxw"; "aara"; "qqsq"];
  UM "shuffle_accessor_4" [TTy "int32_t"; TTy "ivec4"; TIx 0; TIx 0; TIx 1; TIx 3] ["xxyw"; "rrga"; "sstq"];
  UM "shuffle_accessor_4" [TTy "int32_t"; TTy "ivec4"; TIx 1; TIx 0; TIx 1; TIx 3] ["yxyw"; "grga"; "tstq"];
  UM "shuffle_accessor_4" [TTy "int32_t"; TTy "ivec4"; TIx 2; TIx 0; TIx 1; TIx 3] ["zxyw"; "brga"; "pstq"];
  UM "shuffle_accessor_4" [TTy "int32_t"; TTy "ivec4"; TIx 3; TIx 0; TIx 1; TIx 3] ["wxyw"; "arga"; "qstq"];
  UM "shuffle_accessor_4" [TTy "int32_t"; TTy "ivec4"; TIx 0; TIx 1; TIx 1; TIx 3] ["xyyw"; "rgga"; "sttq"];
  UM "shuffle_accessor_4" [TTy "int32_t"; TTy "ivec4"; TIx 1; TIx 1; TIx 1; TIx 3] ["yyyw"; "ggga"; "tttq"];
  UM "shuffle_accessor_4" [TTy "int32_t"; TTy "ivec4"; TIx 2; TIx 1; TIx 1; TIx 3] ["zyyw"; "bgga"; "pttq"];
  UM "shuffle_accessor_4" [TTy "int32_t"; TTy "ivec4"; TIx 3; TIx 1; TIx 1; TIx 3] ["wyyw"; "agga"; "qttq"];
  UM "shuffle_accessor_4" [TTy "int32_t"; TTy "ivec4"; TIx 0; TIx 2; TIx 1; TIx 3] ["xzyw"; "rbga"; "sptq"];
  UM "shuffle_accessor_4" [TTy "int32_t"; TTy "ivec4"; TIx 1; TIx 2; TIx 1; TIx 3] ["yzyw"; "gbga"; "tptq"];
  UM "shuffle_accessor_4" [TTy "int32_t"; TTy "ivec4"; TIx 2; TIx 2; TIx 1; TIx 3] ["zzyw"; "bbga"; "pptq"];
  UM "shuffle_accessor_4" [TTy "int32_t"; TTy "ivec4"; TIx 3; TIx 2; TIx 1; TIx 3] ["wzyw"; "abga"; "qptq"];
  UM "shuffle_accessor_4" [TTy "int32_t"; TTy "ivec4"; TIx 0; TIx 3; TIx 1; TIx 3] ["xwyw"; "raga"; "sqtq"];
  UM "shuffle_accessor_4" [TTy "int32_t"; TTy "ivec4"; TIx 1; TIx 3; TIx 1; TIx 3] ["ywyw"; "gaga"; "tqtq"];
  UM "shuffle_accessor_4" [TTy "int32_t"; TTy "ivec4"; TIx 2; TIx 3; TIx 1; TIx 3] ["zwyw"; "baga"; "pqtq"];
  UM "shuffle_accessor_4" [TTy "int32_t"; TTy "ivec4"; TIx 3; TIx 3; TIx 1; TIx 3] ["wwyw"; "aaga"; "qqtq"];
  UM "shuffle_accessor_4" [TTy "int32_t"; TTy "ivec4"; TIx 0; TIx 0; TIx 2; TIx 3] ["xxzw"; "rrba"; "sspq"];
  UM "shuffle_accessor_4" [TTy "int32_t"; TTy "ivec4"; TIx 1; TIx 0; TIx 2; TIx 3] ["yxzw"; "grba"; "tspq"];
  UM "shuffle_accessor_4" [TTy "int32_t"; TTy "ivec4"; TIx 2; TIx 0; TIx 2; TIx 3] ["zxzw"; "brba"; "pspq"];
  UM "shuffle_accessor_4" [TTy "int32_t"; TTy "ivec4"; TIx 3; TIx 0; TIx 2; TIx 3] ["wxzw"; "arba"; "qspq"];
  UM "shuffle_accessor_4" [TTy "int32_t"; TTy "ivec4"; TIx 0; TIx 1; TIx 2; TIx 3] ["xyzw"; "rgba"; "stpq"];
  UM "shuffle_accessor_4" [TTy "int32_t"; TTy "ivec4"; TIx 1; TIx 1; TIx 2; TIx 3] ["yyzw"; "ggba"; "ttpq"];
  UM "shuffle_accessor_4" [TTy "int32_t"; TTy "ivec4"; TIx 2; TIx 1; TIx 2; TIx 3] ["zyzw"; "bgba"; "ptpq"];
  UM "shuffle_accessor_4" [TTy "int32_t"; TTy "ivec4"; TIx 3; TIx 1; TIx 2; TIx 3] ["wyzw"; "agba"; "qtpq"];
  UM "shuffle_accessor_4" [TTy "int32_t"; TTy "ivec4"; TIx 0; TIx 2; TIx 2; TIx 3] ["xzzw"; "rbba"; "sppq"];
  UM "shuffle_accessor_4" [TTy "int32_t"; TTy "ivec4"; TIx 1; TIx 2; TIx 2; TIx 3] ["yzzw"; "gbba"; "tppq"];
  UM "shuffle_accessor_4" [TTy "int32_t"; TTy "ivec4"; TIx 2; TIx 2; TIx 2; TIx 3] ["zzzw"; "bbba"; "pppq"];
  UM "shuffle_accessor_4" [TTy "int32_t"; TTy "ivec4"; TIx 3; TIx 2; TIx 2; TIx 3] ["wzzw"; "abba"; "qppq"];
  UM "shuffle_accessor_4" [TTy "int32_t"; TTy "ivec4"; TIx 0; TIx 3; TIx 2; TIx 3] ["xwzw"; "raba"; "sqpq"];
  UM "shuffle_accessor_4" [TTy "int32_t"; TTy "ivec4"; TIx 1; TIx 3; TIx 2; TIx 3] ["ywzw"; "gaba"; "tqpq"];
  UM "shuffle_accessor_4" [TTy "int32_t"; TTy "ivec4"; TIx 2; TIx 3; TIx 2; TIx 3] ["zwzw"; "baba"; "pqpq"];
  UM "shuffle_accessor_4" [TTy "int32_t"; TTy "ivec4"; TIx 3; TIx 3; TIx 2; TIx 3] ["wwzw"; "aaba"; "qqpq"];
  UM "shuffle_accessor_4" [TTy "int32_t"; TTy "ivec4"; TIx 0; TIx 0; TIx 3; TIx 3] ["xxww"; "rraa"; "ssqq"];
  UM "shuffle_accessor_4" [TTy "int32_t"; TTy "ivec4"; TIx 1; TIx 0; TIx 3; TIx 3] ["yxww"; "graa"; "tsqq"];
  UM "shuffle_accessor_4" [TTy "int32_t"; TTy "ivec4"; TIx 2; TIx 0; TIx 3; TIx 3] ["zxww"; "braa"; "psqq"];
  UM "shuffle_accessor_4" [TTy "int32_t"; TTy "ivec4"; TIx 3; TIx 0; TIx 3; TIx 3] ["wxww"; "araa"; "qsqq"];
  UM "shuffle_accessor_4" [TTy "int32_t"; TTy "ivec4"; TIx 0; TIx 1; TIx 3; TIx 3] ["xyww"; "rgaa"; "stqq"];
  UM "shuffle_accessor_4" [TTy "int32_t"; TTy "ivec4"; TIx 1; TIx 1; TIx 3; TIx 3] ["yyww"; "ggaa"; "ttqq"];
  UM "shuffle_accessor_4" [TTy "int32_t"; TTy "ivec4"; TIx 2; TIx 1; TIx 3; TIx 3] ["zyww"; "bgaa"; "ptqq"];
  UM "shuffle_accessor_4" [TTy "int32_t"; TTy "ivec4"; TIx 3; TIx 1; TIx 3; TIx 3] ["wyww"; "agaa"; "qtqq"];
  UM "shuffle_accessor_4" [TTy "int32_t"; TTy "ivec4"; TIx 0; TIx 2; TIx 3; TIx 3] ["xzww"; "rbaa"; "spqq"];
  UM "shuffle_accessor_4" [TTy "int32_t"; TTy "ivec4"; TIx 1; TIx 2; TIx 3; TIx 3] ["yzww"; "gbaa"; "tpqq"];
  UM "shuffle_accessor_4" [TTy "int32_t"; TTy "ivec4"; TIx 2; TIx 2; TIx 3; TIx 3] ["zzww"; "bbaa"; "ppqq"];
  UM "shuffle_accessor_4" [TTy "int32_t"; TTy "ivec4"; TIx 3; TIx 2; TIx 3; TIx 3] ["wzww"; "abaa"; "qpqq"];
  UM "shuffle_accessor_4" [TTy "int32_t"; TTy "ivec4"; TIx 0; TIx 3; TIx 3; TIx 3] ["xwww"; "raaa"; "sqqq"];
  UM "shuffle_accessor_4" [TTy "int32_t"; TTy "ivec4"; TIx 1; TIx 3; TIx 3; TIx 3] ["ywww"; "gaaa"; "tqqq"];
  UM "shuffle_accessor_4" [TTy "int32_t"; TTy "ivec4"; TIx 2; TIx 3; TIx 3; TIx 3] ["zwww"; "baaa"; "pqqq"];
  UM "shuffle_accessor_4" [TTy "int32_t"; TTy "ivec4"; TIx 3; TIx 3; TIx 3; TIx 3] ["wwww"; "aaaa"; "qqqq"]].
