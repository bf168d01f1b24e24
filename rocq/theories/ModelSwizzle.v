(** * Member tables of the vector types

    The names of the component accessors and swizzle members declared in
    include/zcm/vec2.hpp, vec3.hpp, vec4.hpp, ivec2.hpp, ivec3.hpp and ivec4.hpp,
    each with its template indices, in declaration order, and
    [shuffle_accessor_N::operator V] of the vecN_access.hpp headers.  The tables
    are a transcription of the declarations. *)
From Coq Require Import List String.
From Verif Require Import Outcome Types.
Import ListNotations.
Local Open Scope string_scope.

(** A declaration [shuffle_accessor_N<T, vecK, i1, ..., ik> n1, n2, n3] *)
Record decl : Type := Decl { d_result : nat; d_indices : list nat; d_names : list string }.

(** Member lookup: the declaration that introduces a name. *)
Fixpoint lookup (table : list decl) (name : string) : option decl :=
  match table with
  | nil => None
  | d :: t => if existsb (String.eqb name) (d_names d) then Some d else lookup t name
  end.

(** include/zcm/vec2.hpp 40-41 *)
Definition vec2_scalars : list decl :=
  [Decl 1 [0] ["x"; "r"; "s"];
   Decl 1 [1] ["y"; "g"; "t"]].
(** include/zcm/vec2.hpp 43-46 *)
Definition vec2_shuffles : list decl :=
  [Decl 2 [0; 0] ["xx"; "rr"; "ss"];
   Decl 2 [1; 0] ["yx"; "gr"; "ts"];
   Decl 2 [0; 1] ["xy"; "rg"; "st"];
   Decl 2 [1; 1] ["yy"; "gg"; "tt"]].
(** include/zcm/vec3.hpp 43-45 *)
Definition vec3_scalars : list decl :=
  [Decl 1 [0] ["x"; "r"; "s"];
   Decl 1 [1] ["y"; "g"; "t"];
   Decl 1 [2] ["z"; "b"; "p"]].
(** include/zcm/vec3.hpp 48-84 *)
Definition vec3_shuffles : list decl :=
  [Decl 2 [0; 0] ["xx"; "rr"; "ss"];
   Decl 2 [1; 0] ["yx"; "gr"; "ts"];
   Decl 2 [2; 0] ["zx"; "br"; "ps"];
   Decl 2 [0; 1] ["xy"; "rg"; "st"];
   Decl 2 [1; 1] ["yy"; "gg"; "tt"];
   Decl 2 [2; 1] ["zy"; "bg"; "pt"];
   Decl 2 [0; 2] ["xz"; "rb"; "sp"];
   Decl 2 [1; 2] ["yz"; "gb"; "tp"];
   Decl 2 [2; 2] ["zz"; "bb"; "pp"];
   Decl 3 [0; 0; 0] ["xxx"; "rrr"; "sss"];
   Decl 3 [1; 0; 0] ["yxx"; "grr"; "tss"];
   Decl 3 [2; 0; 0] ["zxx"; "brr"; "pss"];
   Decl 3 [0; 1; 0] ["xyx"; "rgr"; "sts"];
   Decl 3 [1; 1; 0] ["yyx"; "ggr"; "tts"];
   Decl 3 [2; 1; 0] ["zyx"; "bgr"; "pts"];
   Decl 3 [0; 2; 0] ["xzx"; "rbr"; "sps"];
   Decl 3 [1; 2; 0] ["yzx"; "gbr"; "tps"];
   Decl 3 [2; 2; 0] ["zzx"; "bbr"; "pps"];
   Decl 3 [0; 0; 1] ["xxy"; "rrg"; "sst"];
   Decl 3 [1; 0; 1] ["yxy"; "grg"; "tst"];
   Decl 3 [2; 0; 1] ["zxy"; "brg"; "pst"];
   Decl 3 [0; 1; 1] ["xyy"; "rgg"; "stt"];
   Decl 3 [1; 1; 1] ["yyy"; "ggg"; "ttt"];
   Decl 3 [2; 1; 1] ["zyy"; "bgg"; "ptt"];
   Decl 3 [0; 2; 1] ["xzy"; "rbg"; "spt"];
   Decl 3 [1; 2; 1] ["yzy"; "gbg"; "tpt"];
   Decl 3 [2; 2; 1] ["zzy"; "bbg"; "ppt"];
   Decl 3 [0; 0; 2] ["xxz"; "rrb"; "ssp"];
   Decl 3 [1; 0; 2] ["yxz"; "grb"; "tsp"];
   Decl 3 [2; 0; 2] ["zxz"; "brb"; "psp"];
   Decl 3 [0; 1; 2] ["xyz"; "rgb"; "stp"];
   Decl 3 [1; 1; 2] ["yyz"; "ggb"; "ttp"];
   Decl 3 [2; 1; 2] ["zyz"; "bgb"; "ptp"];
   Decl 3 [0; 2; 2] ["xzz"; "rbb"; "spp"];
   Decl 3 [1; 2; 2] ["yzz"; "gbb"; "tpp"];
   Decl 3 [2; 2; 2] ["zzz"; "bbb"; "ppp"]].
(** include/zcm/vec4.hpp 51-54 *)
Definition vec4_scalars : list decl :=
  [Decl 1 [0] ["x"; "r"; "s"];
   Decl 1 [1] ["y"; "g"; "t"];
   Decl 1 [2] ["z"; "b"; "p"];
   Decl 1 [3] ["w"; "a"; "q"]].
(** include/zcm/vec4.hpp 57-394 *)
Definition vec4_shuffles : list decl :=
  [Decl 2 [0; 0] ["xx"; "rr"; "ss"];
   Decl 2 [1; 0] ["yx"; "gr"; "ts"];
   Decl 2 [2; 0] ["zx"; "br"; "ps"];
   Decl 2 [3; 0] ["wx"; "ar"; "qs"];
   Decl 2 [0; 1] ["xy"; "rg"; "st"];
   Decl 2 [1; 1] ["yy"; "gg"; "tt"];
   Decl 2 [2; 1] ["zy"; "bg"; "pt"];
   Decl 2 [3; 1] ["wy"; "ag"; "qt"];
   Decl 2 [0; 2] ["xz"; "rb"; "sp"];
   Decl 2 [1; 2] ["yz"; "gb"; "tp"];
   Decl 2 [2; 2] ["zz"; "bb"; "pp"];
   Decl 2 [3; 2] ["wz"; "ab"; "qp"];
   Decl 2 [0; 3] ["xw"; "ra"; "sq"];
   Decl 2 [1; 3] ["yw"; "ga"; "tq"];
   Decl 2 [2; 3] ["zw"; "ba"; "pq"];
   Decl 2 [3; 3] ["ww"; "aa"; "qq"];
   Decl 3 [0; 0; 0] ["xxx"; "rrr"; "sss"];
   Decl 3 [1; 0; 0] ["yxx"; "grr"; "tss"];
   Decl 3 [2; 0; 0] ["zxx"; "brr"; "pss"];
   Decl 3 [3; 0; 0] ["wxx"; "arr"; "qss"];
   Decl 3 [0; 1; 0] ["xyx"; "rgr"; "sts"];
   Decl 3 [1; 1; 0] ["yyx"; "ggr"; "tts"];
   Decl 3 [2; 1; 0] ["zyx"; "bgr"; "pts"];
   Decl 3 [3; 1; 0] ["wyx"; "agr"; "qts"];
   Decl 3 [0; 2; 0] ["xzx"; "rbr"; "sps"];
   Decl 3 [1; 2; 0] ["yzx"; "gbr"; "tps"];
   Decl 3 [2; 2; 0] ["zzx"; "bbr"; "pps"];
   Decl 3 [3; 2; 0] ["wzx"; "abr"; "qps"];
   Decl 3 [0; 3; 0] ["xwx"; "rar"; "sqs"];
   Decl 3 [1; 3; 0] ["ywx"; "gar"; "tqs"];
   Decl 3 [2; 3; 0] ["zwx"; "bar"; "pqs"];
   Decl 3 [3; 3; 0] ["wwx"; "aar"; "qqs"];
   Decl 3 [0; 0; 1] ["xxy"; "rrg"; "sst"];
   Decl 3 [1; 0; 1] ["yxy"; "grg"; "tst"];
   Decl 3 [2; 0; 1] ["zxy"; "brg"; "pst"];
   Decl 3 [3; 0; 1] ["wxy"; "arg"; "qst"];
   Decl 3 [0; 1; 1] ["xyy"; "rgg"; "stt"];
   Decl 3 [1; 1; 1] ["yyy"; "ggg"; "ttt"];
   Decl 3 [2; 1; 1] ["zyy"; "bgg"; "ptt"];
   Decl 3 [3; 1; 1] ["wyy"; "agg"; "qtt"];
   Decl 3 [0; 2; 1] ["xzy"; "rbg"; "spt"];
   Decl 3 [1; 2; 1] ["yzy"; "gbg"; "tpt"];
   Decl 3 [2; 2; 1] ["zzy"; "bbg"; "ppt"];
   Decl 3 [3; 2; 1] ["wzy"; "abg"; "qpt"];
   Decl 3 [0; 3; 1] ["xwy"; "rag"; "sqt"];
   Decl 3 [1; 3; 1] ["ywy"; "gag"; "tqt"];
   Decl 3 [2; 3; 1] ["zwy"; "bag"; "pqt"];
   Decl 3 [3; 3; 1] ["wwy"; "aag"; "qqt"];
   Decl 3 [0; 0; 2] ["xxz"; "rrb"; "ssp"];
   Decl 3 [1; 0; 2] ["yxz"; "grb"; "tsp"];
   Decl 3 [2; 0; 2] ["zxz"; "brb"; "psp"];
   Decl 3 [3; 0; 2] ["wxz"; "arb"; "qsp"];
   Decl 3 [0; 1; 2] ["xyz"; "rgb"; "stp"];
   Decl 3 [1; 1; 2] ["yyz"; "ggb"; "ttp"];
   Decl 3 [2; 1; 2] ["zyz"; "bgb"; "ptp"];
   Decl 3 [3; 1; 2] ["wyz"; "agb"; "qtp"];
   Decl 3 [0; 2; 2] ["xzz"; "rbb"; "spp"];
   Decl 3 [1; 2; 2] ["yzz"; "gbb"; "tpp"];
   Decl 3 [2; 2; 2] ["zzz"; "bbb"; "ppp"];
   Decl 3 [3; 2; 2] ["wzz"; "abb"; "qpp"];
   Decl 3 [0; 3; 2] ["xwz"; "rab"; "sqp"];
   Decl 3 [1; 3; 2] ["ywz"; "gab"; "tqp"];
   Decl 3 [2; 3; 2] ["zwz"; "bab"; "pqp"];
   Decl 3 [3; 3; 2] ["wwz"; "aab"; "qqp"];
   Decl 3 [0; 0; 3] ["xxw"; "rra"; "ssq"];
   Decl 3 [1; 0; 3] ["yxw"; "gra"; "tsq"];
   Decl 3 [2; 0; 3] ["zxw"; "bra"; "psq"];
   Decl 3 [3; 0; 3] ["wxw"; "ara"; "qsq"];
   Decl 3 [0; 1; 3] ["xyw"; "rga"; "stq"];
   Decl 3 [1; 1; 3] ["yyw"; "gga"; "ttq"];
   Decl 3 [2; 1; 3] ["zyw"; "bga"; "ptq"];
   Decl 3 [3; 1; 3] ["wyw"; "aga"; "qtq"];
   Decl 3 [0; 2; 3] ["xzw"; "rba"; "spq"];
   Decl 3 [1; 2; 3] ["yzw"; "gba"; "tpq"];
   Decl 3 [2; 2; 3] ["zzw"; "bba"; "ppq"];
   Decl 3 [3; 2; 3] ["wzw"; "aba"; "qpq"];
   Decl 3 [0; 3; 3] ["xww"; "raa"; "sqq"];
   Decl 3 [1; 3; 3] ["yww"; "gaa"; "tqq"];
   Decl 3 [2; 3; 3] ["zww"; "baa"; "pqq"];
   Decl 3 [3; 3; 3] ["www"; "aaa"; "qqq"];
   Decl 4 [0; 0; 0; 0] ["xxxx"; "rrrr"; "ssss"];
   Decl 4 [1; 0; 0; 0] ["yxxx"; "grrr"; "tsss"];
   Decl 4 [2; 0; 0; 0] ["zxxx"; "brrr"; "psss"];
   Decl 4 [3; 0; 0; 0] ["wxxx"; "arrr"; "qsss"];
   Decl 4 [0; 1; 0; 0] ["xyxx"; "rgrr"; "stss"];
   Decl 4 [1; 1; 0; 0] ["yyxx"; "ggrr"; "ttss"];
   Decl 4 [2; 1; 0; 0] ["zyxx"; "bgrr"; "ptss"];
   Decl 4 [3; 1; 0; 0] ["wyxx"; "agrr"; "qtss"];
   Decl 4 [0; 2; 0; 0] ["xzxx"; "rbrr"; "spss"];
   Decl 4 [1; 2; 0; 0] ["yzxx"; "gbrr"; "tpss"];
   Decl 4 [2; 2; 0; 0] ["zzxx"; "bbrr"; "ppss"];
   Decl 4 [3; 2; 0; 0] ["wzxx"; "abrr"; "qpss"];
   Decl 4 [0; 3; 0; 0] ["xwxx"; "rarr"; "sqss"];
   Decl 4 [1; 3; 0; 0] ["ywxx"; "garr"; "tqss"];
   Decl 4 [2; 3; 0; 0] ["zwxx"; "barr"; "pqss"];
   Decl 4 [3; 3; 0; 0] ["wwxx"; "aarr"; "qqss"];
   Decl 4 [0; 0; 1; 0] ["xxyx"; "rrgr"; "ssts"];
   Decl 4 [1; 0; 1; 0] ["yxyx"; "grgr"; "tsts"];
   Decl 4 [2; 0; 1; 0] ["zxyx"; "brgr"; "psts"];
   Decl 4 [3; 0; 1; 0] ["wxyx"; "argr"; "qsts"];
   Decl 4 [0; 1; 1; 0] ["xyyx"; "rggr"; "stts"];
   Decl 4 [1; 1; 1; 0] ["yyyx"; "gggr"; "ttts"];
   Decl 4 [2; 1; 1; 0] ["zyyx"; "bggr"; "ptts"];
   Decl 4 [3; 1; 1; 0] ["wyyx"; "aggr"; "qtts"];
   Decl 4 [0; 2; 1; 0] ["xzyx"; "rbgr"; "spts"];
   Decl 4 [1; 2; 1; 0] ["yzyx"; "gbgr"; "tpts"];
   Decl 4 [2; 2; 1; 0] ["zzyx"; "bbgr"; "ppts"];
   Decl 4 [3; 2; 1; 0] ["wzyx"; "abgr"; "qpts"];
   Decl 4 [0; 3; 1; 0] ["xwyx"; "ragr"; "sqts"];
   Decl 4 [1; 3; 1; 0] ["ywyx"; "gagr"; "tqts"];
   Decl 4 [2; 3; 1; 0] ["zwyx"; "bagr"; "pqts"];
   Decl 4 [3; 3; 1; 0] ["wwyx"; "aagr"; "qqts"];
   Decl 4 [0; 0; 2; 0] ["xxzx"; "rrbr"; "ssps"];
   Decl 4 [1; 0; 2; 0] ["yxzx"; "grbr"; "tsps"];
   Decl 4 [2; 0; 2; 0] ["zxzx"; "brbr"; "psps"];
   Decl 4 [3; 0; 2; 0] ["wxzx"; "arbr"; "qsps"];
   Decl 4 [0; 1; 2; 0] ["xyzx"; "rgbr"; "stps"];
   Decl 4 [1; 1; 2; 0] ["yyzx"; "ggbr"; "ttps"];
   Decl 4 [2; 1; 2; 0] ["zyzx"; "bgbr"; "ptps"];
   Decl 4 [3; 1; 2; 0] ["wyzx"; "agbr"; "qtps"];
   Decl 4 [0; 2; 2; 0] ["xzzx"; "rbbr"; "spps"];
   Decl 4 [1; 2; 2; 0] ["yzzx"; "gbbr"; "tpps"];
   Decl 4 [2; 2; 2; 0] ["zzzx"; "bbbr"; "ppps"];
   Decl 4 [3; 2; 2; 0] ["wzzx"; "abbr"; "qpps"];
   Decl 4 [0; 3; 2; 0] ["xwzx"; "rabr"; "sqps"];
   Decl 4 [1; 3; 2; 0] ["ywzx"; "gabr"; "tqps"];
   Decl 4 [2; 3; 2; 0] ["zwzx"; "babr"; "pqps"];
   Decl 4 [3; 3; 2; 0] ["wwzx"; "aabr"; "qqps"];
   Decl 4 [0; 0; 3; 0] ["xxwx"; "rrar"; "ssqs"];
   Decl 4 [1; 0; 3; 0] ["yxwx"; "grar"; "tsqs"];
   Decl 4 [2; 0; 3; 0] ["zxwx"; "brar"; "psqs"];
   Decl 4 [3; 0; 3; 0] ["wxwx"; "arar"; "qsqs"];
   Decl 4 [0; 1; 3; 0] ["xywx"; "rgar"; "stqs"];
   Decl 4 [1; 1; 3; 0] ["yywx"; "ggar"; "ttqs"];
   Decl 4 [2; 1; 3; 0] ["zywx"; "bgar"; "ptqs"];
   Decl 4 [3; 1; 3; 0] ["wywx"; "agar"; "qtqs"];
   Decl 4 [0; 2; 3; 0] ["xzwx"; "rbar"; "spqs"];
   Decl 4 [1; 2; 3; 0] ["yzwx"; "gbar"; "tpqs"];
   Decl 4 [2; 2; 3; 0] ["zzwx"; "bbar"; "ppqs"];
   Decl 4 [3; 2; 3; 0] ["wzwx"; "abar"; "qpqs"];
   Decl 4 [0; 3; 3; 0] ["xwwx"; "raar"; "sqqs"];
   Decl 4 [1; 3; 3; 0] ["ywwx"; "gaar"; "tqqs"];
   Decl 4 [2; 3; 3; 0] ["zwwx"; "baar"; "pqqs"];
   Decl 4 [3; 3; 3; 0] ["wwwx"; "aaar"; "qqqs"];
   Decl 4 [0; 0; 0; 1] ["xxxy"; "rrrg"; "ssst"];
   Decl 4 [1; 0; 0; 1] ["yxxy"; "grrg"; "tsst"];
   Decl 4 [2; 0; 0; 1] ["zxxy"; "brrg"; "psst"];
   Decl 4 [3; 0; 0; 1] ["wxxy"; "arrg"; "qsst"];
   Decl 4 [0; 1; 0; 1] ["xyxy"; "rgrg"; "stst"];
   Decl 4 [1; 1; 0; 1] ["yyxy"; "ggrg"; "ttst"];
   Decl 4 [2; 1; 0; 1] ["zyxy"; "bgrg"; "ptst"];
   Decl 4 [3; 1; 0; 1] ["wyxy"; "agrg"; "qtst"];
   Decl 4 [0; 2; 0; 1] ["xzxy"; "rbrg"; "spst"];
   Decl 4 [1; 2; 0; 1] ["yzxy"; "gbrg"; "tpst"];
   Decl 4 [2; 2; 0; 1] ["zzxy"; "bbrg"; "ppst"];
   Decl 4 [3; 2; 0; 1] ["wzxy"; "abrg"; "qpst"];
   Decl 4 [0; 3; 0; 1] ["xwxy"; "rarg"; "sqst"];
   Decl 4 [1; 3; 0; 1] ["ywxy"; "garg"; "tqst"];
   Decl 4 [2; 3; 0; 1] ["zwxy"; "barg"; "pqst"];
   Decl 4 [3; 3; 0; 1] ["wwxy"; "aarg"; "qqst"];
   Decl 4 [0; 0; 1; 1] ["xxyy"; "rrgg"; "sstt"];
   Decl 4 [1; 0; 1; 1] ["yxyy"; "grgg"; "tstt"];
   Decl 4 [2; 0; 1; 1] ["zxyy"; "brgg"; "pstt"];
   Decl 4 [3; 0; 1; 1] ["wxyy"; "argg"; "qstt"];
   Decl 4 [0; 1; 1; 1] ["xyyy"; "rggg"; "sttt"];
   Decl 4 [1; 1; 1; 1] ["yyyy"; "gggg"; "tttt"];
   Decl 4 [2; 1; 1; 1] ["zyyy"; "bggg"; "pttt"];
   Decl 4 [3; 1; 1; 1] ["wyyy"; "aggg"; "qttt"];
   Decl 4 [0; 2; 1; 1] ["xzyy"; "rbgg"; "sptt"];
   Decl 4 [1; 2; 1; 1] ["yzyy"; "gbgg"; "tptt"];
   Decl 4 [2; 2; 1; 1] ["zzyy"; "bbgg"; "pptt"];
   Decl 4 [3; 2; 1; 1] ["wzyy"; "abgg"; "qptt"];
   Decl 4 [0; 3; 1; 1] ["xwyy"; "ragg"; "sqtt"];
   Decl 4 [1; 3; 1; 1] ["ywyy"; "gagg"; "tqtt"];
   Decl 4 [2; 3; 1; 1] ["zwyy"; "bagg"; "pqtt"];
   Decl 4 [3; 3; 1; 1] ["wwyy"; "aagg"; "qqtt"];
   Decl 4 [0; 0; 2; 1] ["xxzy"; "rrbg"; "sspt"];
   Decl 4 [1; 0; 2; 1] ["yxzy"; "grbg"; "tspt"];
   Decl 4 [2; 0; 2; 1] ["zxzy"; "brbg"; "pspt"];
   Decl 4 [3; 0; 2; 1] ["wxzy"; "arbg"; "qspt"];
   Decl 4 [0; 1; 2; 1] ["xyzy"; "rgbg"; "stpt"];
   Decl 4 [1; 1; 2; 1] ["yyzy"; "ggbg"; "ttpt"];
   Decl 4 [2; 1; 2; 1] ["zyzy"; "bgbg"; "ptpt"];
   Decl 4 [3; 1; 2; 1] ["wyzy"; "agbg"; "qtpt"];
   Decl 4 [0; 2; 2; 1] ["xzzy"; "rbbg"; "sppt"];
   Decl 4 [1; 2; 2; 1] ["yzzy"; "gbbg"; "tppt"];
   Decl 4 [2; 2; 2; 1] ["zzzy"; "bbbg"; "pppt"];
   Decl 4 [3; 2; 2; 1] ["wzzy"; "abbg"; "qppt"];
   Decl 4 [0; 3; 2; 1] ["xwzy"; "rabg"; "sqpt"];
   Decl 4 [1; 3; 2; 1] ["ywzy"; "gabg"; "tqpt"];
   Decl 4 [2; 3; 2; 1] ["zwzy"; "babg"; "pqpt"];
   Decl 4 [3; 3; 2; 1] ["wwzy"; "aabg"; "qqpt"];
   Decl 4 [0; 0; 3; 1] ["xxwy"; "rrag"; "ssqt"];
   Decl 4 [1; 0; 3; 1] ["yxwy"; "grag"; "tsqt"];
   Decl 4 [2; 0; 3; 1] ["zxwy"; "brag"; "psqt"];
   Decl 4 [3; 0; 3; 1] ["wxwy"; "arag"; "qsqt"];
   Decl 4 [0; 1; 3; 1] ["xywy"; "rgag"; "stqt"];
   Decl 4 [1; 1; 3; 1] ["yywy"; "ggag"; "ttqt"];
   Decl 4 [2; 1; 3; 1] ["zywy"; "bgag"; "ptqt"];
   Decl 4 [3; 1; 3; 1] ["wywy"; "agag"; "qtqt"];
   Decl 4 [0; 2; 3; 1] ["xzwy"; "rbag"; "spqt"];
   Decl 4 [1; 2; 3; 1] ["yzwy"; "gbag"; "tpqt"];
   Decl 4 [2; 2; 3; 1] ["zzwy"; "bbag"; "ppqt"];
   Decl 4 [3; 2; 3; 1] ["wzwy"; "abag"; "qpqt"];
   Decl 4 [0; 3; 3; 1] ["xwwy"; "raag"; "sqqt"];
   Decl 4 [1; 3; 3; 1] ["ywwy"; "gaag"; "tqqt"];
   Decl 4 [2; 3; 3; 1] ["zwwy"; "baag"; "pqqt"];
   Decl 4 [3; 3; 3; 1] ["wwwy"; "aaag"; "qqqt"];
   Decl 4 [0; 0; 0; 2] ["xxxz"; "rrrb"; "sssp"];
   Decl 4 [1; 0; 0; 2] ["yxxz"; "grrb"; "tssp"];
   Decl 4 [2; 0; 0; 2] ["zxxz"; "brrb"; "pssp"];
   Decl 4 [3; 0; 0; 2] ["wxxz"; "arrb"; "qssp"];
   Decl 4 [0; 1; 0; 2] ["xyxz"; "rgrb"; "stsp"];
   Decl 4 [1; 1; 0; 2] ["yyxz"; "ggrb"; "ttsp"];
   Decl 4 [2; 1; 0; 2] ["zyxz"; "bgrb"; "ptsp"];
   Decl 4 [3; 1; 0; 2] ["wyxz"; "agrb"; "qtsp"];
   Decl 4 [0; 2; 0; 2] ["xzxz"; "rbrb"; "spsp"];
   Decl 4 [1; 2; 0; 2] ["yzxz"; "gbrb"; "tpsp"];
   Decl 4 [2; 2; 0; 2] ["zzxz"; "bbrb"; "ppsp"];
   Decl 4 [3; 2; 0; 2] ["wzxz"; "abrb"; "qpsp"];
   Decl 4 [0; 3; 0; 2] ["xwxz"; "rarb"; "sqsp"];
   Decl 4 [1; 3; 0; 2] ["ywxz"; "garb"; "tqsp"];
   Decl 4 [2; 3; 0; 2] ["zwxz"; "barb"; "pqsp"];
   Decl 4 [3; 3; 0; 2] ["wwxz"; "aarb"; "qqsp"];
   Decl 4 [0; 0; 1; 2] ["xxyz"; "rrgb"; "sstp"];
   Decl 4 [1; 0; 1; 2] ["yxyz"; "grgb"; "tstp"];
   Decl 4 [2; 0; 1; 2] ["zxyz"; "brgb"; "pstp"];
   Decl 4 [3; 0; 1; 2] ["wxyz"; "argb"; "qstp"];
   Decl 4 [0; 1; 1; 2] ["xyyz"; "rggb"; "sttp"];
   Decl 4 [1; 1; 1; 2] ["yyyz"; "gggb"; "tttp"];
   Decl 4 [2; 1; 1; 2] ["zyyz"; "bggb"; "pttp"];
   Decl 4 [3; 1; 1; 2] ["wyyz"; "aggb"; "qttp"];
   Decl 4 [0; 2; 1; 2] ["xzyz"; "rbgb"; "sptp"];
   Decl 4 [1; 2; 1; 2] ["yzyz"; "gbgb"; "tptp"];
   Decl 4 [2; 2; 1; 2] ["zzyz"; "bbgb"; "pptp"];
   Decl 4 [3; 2; 1; 2] ["wzyz"; "abgb"; "qptp"];
   Decl 4 [0; 3; 1; 2] ["xwyz"; "ragb"; "sqtp"];
   Decl 4 [1; 3; 1; 2] ["ywyz"; "gagb"; "tqtp"];
   Decl 4 [2; 3; 1; 2] ["zwyz"; "bagb"; "pqtp"];
   Decl 4 [3; 3; 1; 2] ["wwyz"; "aagb"; "qqtp"];
   Decl 4 [0; 0; 2; 2] ["xxzz"; "rrbb"; "sspp"];
   Decl 4 [1; 0; 2; 2] ["yxzz"; "grbb"; "tspp"];
   Decl 4 [2; 0; 2; 2] ["zxzz"; "brbb"; "pspp"];
   Decl 4 [3; 0; 2; 2] ["wxzz"; "arbb"; "qspp"];
   Decl 4 [0; 1; 2; 2] ["xyzz"; "rgbb"; "stpp"];
   Decl 4 [1; 1; 2; 2] ["yyzz"; "ggbb"; "ttpp"];
   Decl 4 [2; 1; 2; 2] ["zyzz"; "bgbb"; "ptpp"];
   Decl 4 [3; 1; 2; 2] ["wyzz"; "agbb"; "qtpp"];
   Decl 4 [0; 2; 2; 2] ["xzzz"; "rbbb"; "sppp"];
   Decl 4 [1; 2; 2; 2] ["yzzz"; "gbbb"; "tppp"];
   Decl 4 [2; 2; 2; 2] ["zzzz"; "bbbb"; "pppp"];
   Decl 4 [3; 2; 2; 2] ["wzzz"; "abbb"; "qppp"];
   Decl 4 [0; 3; 2; 2] ["xwzz"; "rabb"; "sqpp"];
   Decl 4 [1; 3; 2; 2] ["ywzz"; "gabb"; "tqpp"];
   Decl 4 [2; 3; 2; 2] ["zwzz"; "babb"; "pqpp"];
   Decl 4 [3; 3; 2; 2] ["wwzz"; "aabb"; "qqpp"];
   Decl 4 [0; 0; 3; 2] ["xxwz"; "rrab"; "ssqp"];
   Decl 4 [1; 0; 3; 2] ["yxwz"; "grab"; "tsqp"];
   Decl 4 [2; 0; 3; 2] ["zxwz"; "brab"; "psqp"];
   Decl 4 [3; 0; 3; 2] ["wxwz"; "arab"; "qsqp"];
   Decl 4 [0; 1; 3; 2] ["xywz"; "rgab"; "stqp"];
   Decl 4 [1; 1; 3; 2] ["yywz"; "ggab"; "ttqp"];
   Decl 4 [2; 1; 3; 2] ["zywz"; "bgab"; "ptqp"];
   Decl 4 [3; 1; 3; 2] ["wywz"; "agab"; "qtqp"];
   Decl 4 [0; 2; 3; 2] ["xzwz"; "rbab"; "spqp"];
   Decl 4 [1; 2; 3; 2] ["yzwz"; "gbab"; "tpqp"];
   Decl 4 [2; 2; 3; 2] ["zzwz"; "bbab"; "ppqp"];
   Decl 4 [3; 2; 3; 2] ["wzwz"; "abab"; "qpqp"];
   Decl 4 [0; 3; 3; 2] ["xwwz"; "raab"; "sqqp"];
   Decl 4 [1; 3; 3; 2] ["ywwz"; "gaab"; "tqqp"];
   Decl 4 [2; 3; 3; 2] ["zwwz"; "baab"; "pqqp"];
   Decl 4 [3; 3; 3; 2] ["wwwz"; "aaab"; "qqqp"];
   Decl 4 [0; 0; 0; 3] ["xxxw"; "rrra"; "sssq"];
   Decl 4 [1; 0; 0; 3] ["yxxw"; "grra"; "tssq"];
   Decl 4 [2; 0; 0; 3] ["zxxw"; "brra"; "pssq"];
   Decl 4 [3; 0; 0; 3] ["wxxw"; "arra"; "qssq"];
   Decl 4 [0; 1; 0; 3] ["xyxw"; "rgra"; "stsq"];
   Decl 4 [1; 1; 0; 3] ["yyxw"; "ggra"; "ttsq"];
   Decl 4 [2; 1; 0; 3] ["zyxw"; "bgra"; "ptsq"];
   Decl 4 [3; 1; 0; 3] ["wyxw"; "agra"; "qtsq"];
   Decl 4 [0; 2; 0; 3] ["xzxw"; "rbra"; "spsq"];
   Decl 4 [1; 2; 0; 3] ["yzxw"; "gbra"; "tpsq"];
   Decl 4 [2; 2; 0; 3] ["zzxw"; "bbra"; "ppsq"];
   Decl 4 [3; 2; 0; 3] ["wzxw"; "abra"; "qpsq"];
   Decl 4 [0; 3; 0; 3] ["xwxw"; "rara"; "sqsq"];
   Decl 4 [1; 3; 0; 3] ["ywxw"; "gara"; "tqsq"];
   Decl 4 [2; 3; 0; 3] ["zwxw"; "bara"; "pqsq"];
   Decl 4 [3; 3; 0; 3] ["wwxw"; "aara"; "qqsq"];
   Decl 4 [0; 0; 1; 3] ["xxyw"; "rrga"; "sstq"];
   Decl 4 [1; 0; 1; 3] ["yxyw"; "grga"; "tstq"];
   Decl 4 [2; 0; 1; 3] ["zxyw"; "brga"; "pstq"];
   Decl 4 [3; 0; 1; 3] ["wxyw"; "arga"; "qstq"];
   Decl 4 [0; 1; 1; 3] ["xyyw"; "rgga"; "sttq"];
   Decl 4 [1; 1; 1; 3] ["yyyw"; "ggga"; "tttq"];
   Decl 4 [2; 1; 1; 3] ["zyyw"; "bgga"; "pttq"];
   Decl 4 [3; 1; 1; 3] ["wyyw"; "agga"; "qttq"];
   Decl 4 [0; 2; 1; 3] ["xzyw"; "rbga"; "sptq"];
   Decl 4 [1; 2; 1; 3] ["yzyw"; "gbga"; "tptq"];
   Decl 4 [2; 2; 1; 3] ["zzyw"; "bbga"; "pptq"];
   Decl 4 [3; 2; 1; 3] ["wzyw"; "abga"; "qptq"];
   Decl 4 [0; 3; 1; 3] ["xwyw"; "raga"; "sqtq"];
   Decl 4 [1; 3; 1; 3] ["ywyw"; "gaga"; "tqtq"];
   Decl 4 [2; 3; 1; 3] ["zwyw"; "baga"; "pqtq"];
   Decl 4 [3; 3; 1; 3] ["wwyw"; "aaga"; "qqtq"];
   Decl 4 [0; 0; 2; 3] ["xxzw"; "rrba"; "sspq"];
   Decl 4 [1; 0; 2; 3] ["yxzw"; "grba"; "tspq"];
   Decl 4 [2; 0; 2; 3] ["zxzw"; "brba"; "pspq"];
   Decl 4 [3; 0; 2; 3] ["wxzw"; "arba"; "qspq"];
   Decl 4 [0; 1; 2; 3] ["xyzw"; "rgba"; "stpq"];
   Decl 4 [1; 1; 2; 3] ["yyzw"; "ggba"; "ttpq"];
   Decl 4 [2; 1; 2; 3] ["zyzw"; "bgba"; "ptpq"];
   Decl 4 [3; 1; 2; 3] ["wyzw"; "agba"; "qtpq"];
   Decl 4 [0; 2; 2; 3] ["xzzw"; "rbba"; "sppq"];
   Decl 4 [1; 2; 2; 3] ["yzzw"; "gbba"; "tppq"];
   Decl 4 [2; 2; 2; 3] ["zzzw"; "bbba"; "pppq"];
   Decl 4 [3; 2; 2; 3] ["wzzw"; "abba"; "qppq"];
   Decl 4 [0; 3; 2; 3] ["xwzw"; "raba"; "sqpq"];
   Decl 4 [1; 3; 2; 3] ["ywzw"; "gaba"; "tqpq"];
   Decl 4 [2; 3; 2; 3] ["zwzw"; "baba"; "pqpq"];
   Decl 4 [3; 3; 2; 3] ["wwzw"; "aaba"; "qqpq"];
   Decl 4 [0; 0; 3; 3] ["xxww"; "rraa"; "ssqq"];
   Decl 4 [1; 0; 3; 3] ["yxww"; "graa"; "tsqq"];
   Decl 4 [2; 0; 3; 3] ["zxww"; "braa"; "psqq"];
   Decl 4 [3; 0; 3; 3] ["wxww"; "araa"; "qsqq"];
   Decl 4 [0; 1; 3; 3] ["xyww"; "rgaa"; "stqq"];
   Decl 4 [1; 1; 3; 3] ["yyww"; "ggaa"; "ttqq"];
   Decl 4 [2; 1; 3; 3] ["zyww"; "bgaa"; "ptqq"];
   Decl 4 [3; 1; 3; 3] ["wyww"; "agaa"; "qtqq"];
   Decl 4 [0; 2; 3; 3] ["xzww"; "rbaa"; "spqq"];
   Decl 4 [1; 2; 3; 3] ["yzww"; "gbaa"; "tpqq"];
   Decl 4 [2; 2; 3; 3] ["zzww"; "bbaa"; "ppqq"];
   Decl 4 [3; 2; 3; 3] ["wzww"; "abaa"; "qpqq"];
   Decl 4 [0; 3; 3; 3] ["xwww"; "raaa"; "sqqq"];
   Decl 4 [1; 3; 3; 3] ["ywww"; "gaaa"; "tqqq"];
   Decl 4 [2; 3; 3; 3] ["zwww"; "baaa"; "pqqq"];
   Decl 4 [3; 3; 3; 3] ["wwww"; "aaaa"; "qqqq"]].
(** include/zcm/ivec2.hpp 55-56 *)
Definition ivec2_scalars : list decl :=
  [Decl 1 [0] ["x"; "r"; "s"];
   Decl 1 [1] ["y"; "g"; "t"]].
(** include/zcm/ivec2.hpp 58-61 *)
Definition ivec2_shuffles : list decl :=
  [Decl 2 [0; 0] ["xx"; "rr"; "ss"];
   Decl 2 [1; 0] ["yx"; "gr"; "ts"];
   Decl 2 [0; 1] ["xy"; "rg"; "st"];
   Decl 2 [1; 1] ["yy"; "gg"; "tt"]].
(** include/zcm/ivec3.hpp 59-61 *)
Definition ivec3_scalars : list decl :=
  [Decl 1 [0] ["x"; "r"; "s"];
   Decl 1 [1] ["y"; "g"; "t"];
   Decl 1 [2] ["z"; "b"; "p"]].
(** include/zcm/ivec3.hpp 64-100 *)
Definition ivec3_shuffles : list decl :=
  [Decl 2 [0; 0] ["xx"; "rr"; "ss"];
   Decl 2 [1; 0] ["yx"; "gr"; "ts"];
   Decl 2 [2; 0] ["zx"; "br"; "ps"];
   Decl 2 [0; 1] ["xy"; "rg"; "st"];
   Decl 2 [1; 1] ["yy"; "gg"; "tt"];
   Decl 2 [2; 1] ["zy"; "bg"; "pt"];
   Decl 2 [0; 2] ["xz"; "rb"; "sp"];
   Decl 2 [1; 2] ["yz"; "gb"; "tp"];
   Decl 2 [2; 2] ["zz"; "bb"; "pp"];
   Decl 3 [0; 0; 0] ["xxx"; "rrr"; "sss"];
   Decl 3 [1; 0; 0] ["yxx"; "grr"; "tss"];
   Decl 3 [2; 0; 0] ["zxx"; "brr"; "pss"];
   Decl 3 [0; 1; 0] ["xyx"; "rgr"; "sts"];
   Decl 3 [1; 1; 0] ["yyx"; "ggr"; "tts"];
   Decl 3 [2; 1; 0] ["zyx"; "bgr"; "pts"];
   Decl 3 [0; 2; 0] ["xzx"; "rbr"; "sps"];
   Decl 3 [1; 2; 0] ["yzx"; "gbr"; "tps"];
   Decl 3 [2; 2; 0] ["zzx"; "bbr"; "pps"];
   Decl 3 [0; 0; 1] ["xxy"; "rrg"; "sst"];
   Decl 3 [1; 0; 1] ["yxy"; "grg"; "tst"];
   Decl 3 [2; 0; 1] ["zxy"; "brg"; "pst"];
   Decl 3 [0; 1; 1] ["xyy"; "rgg"; "stt"];
   Decl 3 [1; 1; 1] ["yyy"; "ggg"; "ttt"];
   Decl 3 [2; 1; 1] ["zyy"; "bgg"; "ptt"];
   Decl 3 [0; 2; 1] ["xzy"; "rbg"; "spt"];
   Decl 3 [1; 2; 1] ["yzy"; "gbg"; "tpt"];
   Decl 3 [2; 2; 1] ["zzy"; "bbg"; "ppt"];
   Decl 3 [0; 0; 2] ["xxz"; "rrb"; "ssp"];
   Decl 3 [1; 0; 2] ["yxz"; "grb"; "tsp"];
   Decl 3 [2; 0; 2] ["zxz"; "brb"; "psp"];
   Decl 3 [0; 1; 2] ["xyz"; "rgb"; "stp"];
   Decl 3 [1; 1; 2] ["yyz"; "ggb"; "ttp"];
   Decl 3 [2; 1; 2] ["zyz"; "bgb"; "ptp"];
   Decl 3 [0; 2; 2] ["xzz"; "rbb"; "spp"];
   Decl 3 [1; 2; 2] ["yzz"; "gbb"; "tpp"];
   Decl 3 [2; 2; 2] ["zzz"; "bbb"; "ppp"]].
(** include/zcm/ivec4.hpp 65-68 *)
Definition ivec4_scalars : list decl :=
  [Decl 1 [0] ["x"; "r"; "s"];
   Decl 1 [1] ["y"; "g"; "t"];
   Decl 1 [2] ["z"; "b"; "p"];
   Decl 1 [3] ["w"; "a"; "q"]].
(** include/zcm/ivec4.hpp 71-408 *)
Definition ivec4_shuffles : list decl :=
  [Decl 2 [0; 0] ["xx"; "rr"; "ss"];
   Decl 2 [1; 0] ["yx"; "gr"; "ts"];
   Decl 2 [2; 0] ["zx"; "br"; "ps"];
   Decl 2 [3; 0] ["wx"; "ar"; "qs"];
   Decl 2 [0; 1] ["xy"; "rg"; "st"];
   Decl 2 [1; 1] ["yy"; "gg"; "tt"];
   Decl 2 [2; 1] ["zy"; "bg"; "pt"];
   Decl 2 [3; 1] ["wy"; "ag"; "qt"];
   Decl 2 [0; 2] ["xz"; "rb"; "sp"];
   Decl 2 [1; 2] ["yz"; "gb"; "tp"];
   Decl 2 [2; 2] ["zz"; "bb"; "pp"];
   Decl 2 [3; 2] ["wz"; "ab"; "qp"];
   Decl 2 [0; 3] ["xw"; "ra"; "sq"];
   Decl 2 [1; 3] ["yw"; "ga"; "tq"];
   Decl 2 [2; 3] ["zw"; "ba"; "pq"];
   Decl 2 [3; 3] ["ww"; "aa"; "qq"];
   Decl 3 [0; 0; 0] ["xxx"; "rrr"; "sss"];
   Decl 3 [1; 0; 0] ["yxx"; "grr"; "tss"];
   Decl 3 [2; 0; 0] ["zxx"; "brr"; "pss"];
   Decl 3 [3; 0; 0] ["wxx"; "arr"; "qss"];
   Decl 3 [0; 1; 0] ["xyx"; "rgr"; "sts"];
   Decl 3 [1; 1; 0] ["yyx"; "ggr"; "tts"];
   Decl 3 [2; 1; 0] ["zyx"; "bgr"; "pts"];
   Decl 3 [3; 1; 0] ["wyx"; "agr"; "qts"];
   Decl 3 [0; 2; 0] ["xzx"; "rbr"; "sps"];
   Decl 3 [1; 2; 0] ["yzx"; "gbr"; "tps"];
   Decl 3 [2; 2; 0] ["zzx"; "bbr"; "pps"];
   Decl 3 [3; 2; 0] ["wzx"; "abr"; "qps"];
   Decl 3 [0; 3; 0] ["xwx"; "rar"; "sqs"];
   Decl 3 [1; 3; 0] ["ywx"; "gar"; "tqs"];
   Decl 3 [2; 3; 0] ["zwx"; "bar"; "pqs"];
   Decl 3 [3; 3; 0] ["wwx"; "aar"; "qqs"];
   Decl 3 [0; 0; 1] ["xxy"; "rrg"; "sst"];
   Decl 3 [1; 0; 1] ["yxy"; "grg"; "tst"];
   Decl 3 [2; 0; 1] ["zxy"; "brg"; "pst"];
   Decl 3 [3; 0; 1] ["wxy"; "arg"; "qst"];
   Decl 3 [0; 1; 1] ["xyy"; "rgg"; "stt"];
   Decl 3 [1; 1; 1] ["yyy"; "ggg"; "ttt"];
   Decl 3 [2; 1; 1] ["zyy"; "bgg"; "ptt"];
   Decl 3 [3; 1; 1] ["wyy"; "agg"; "qtt"];
   Decl 3 [0; 2; 1] ["xzy"; "rbg"; "spt"];
   Decl 3 [1; 2; 1] ["yzy"; "gbg"; "tpt"];
   Decl 3 [2; 2; 1] ["zzy"; "bbg"; "ppt"];
   Decl 3 [3; 2; 1] ["wzy"; "abg"; "qpt"];
   Decl 3 [0; 3; 1] ["xwy"; "rag"; "sqt"];
   Decl 3 [1; 3; 1] ["ywy"; "gag"; "tqt"];
   Decl 3 [2; 3; 1] ["zwy"; "bag"; "pqt"];
   Decl 3 [3; 3; 1] ["wwy"; "aag"; "qqt"];
   Decl 3 [0; 0; 2] ["xxz"; "rrb"; "ssp"];
   Decl 3 [1; 0; 2] ["yxz"; "grb"; "tsp"];
   Decl 3 [2; 0; 2] ["zxz"; "brb"; "psp"];
   Decl 3 [3; 0; 2] ["wxz"; "arb"; "qsp"];
   Decl 3 [0; 1; 2] ["xyz"; "rgb"; "stp"];
   Decl 3 [1; 1; 2] ["yyz"; "ggb"; "ttp"];
   Decl 3 [2; 1; 2] ["zyz"; "bgb"; "ptp"];
   Decl 3 [3; 1; 2] ["wyz"; "agb"; "qtp"];
   Decl 3 [0; 2; 2] ["xzz"; "rbb"; "spp"];
   Decl 3 [1; 2; 2] ["yzz"; "gbb"; "tpp"];
   Decl 3 [2; 2; 2] ["zzz"; "bbb"; "ppp"];
   Decl 3 [3; 2; 2] ["wzz"; "abb"; "qpp"];
   Decl 3 [0; 3; 2] ["xwz"; "rab"; "sqp"];
   Decl 3 [1; 3; 2] ["ywz"; "gab"; "tqp"];
   Decl 3 [2; 3; 2] ["zwz"; "bab"; "pqp"];
   Decl 3 [3; 3; 2] ["wwz"; "aab"; "qqp"];
   Decl 3 [0; 0; 3] ["xxw"; "rra"; "ssq"];
   Decl 3 [1; 0; 3] ["yxw"; "gra"; "tsq"];
   Decl 3 [2; 0; 3] ["zxw"; "bra"; "psq"];
   Decl 3 [3; 0; 3] ["wxw"; "ara"; "qsq"];
   Decl 3 [0; 1; 3] ["xyw"; "rga"; "stq"];
   Decl 3 [1; 1; 3] ["yyw"; "gga"; "ttq"];
   Decl 3 [2; 1; 3] ["zyw"; "bga"; "ptq"];
   Decl 3 [3; 1; 3] ["wyw"; "aga"; "qtq"];
   Decl 3 [0; 2; 3] ["xzw"; "rba"; "spq"];
   Decl 3 [1; 2; 3] ["yzw"; "gba"; "tpq"];
   Decl 3 [2; 2; 3] ["zzw"; "bba"; "ppq"];
   Decl 3 [3; 2; 3] ["wzw"; "aba"; "qpq"];
   Decl 3 [0; 3; 3] ["xww"; "raa"; "sqq"];
   Decl 3 [1; 3; 3] ["yww"; "gaa"; "tqq"];
   Decl 3 [2; 3; 3] ["zww"; "baa"; "pqq"];
   Decl 3 [3; 3; 3] ["www"; "aaa"; "qqq"];
   Decl 4 [0; 0; 0; 0] ["xxxx"; "rrrr"; "ssss"];
   Decl 4 [1; 0; 0; 0] ["yxxx"; "grrr"; "tsss"];
   Decl 4 [2; 0; 0; 0] ["zxxx"; "brrr"; "psss"];
   Decl 4 [3; 0; 0; 0] ["wxxx"; "arrr"; "qsss"];
   Decl 4 [0; 1; 0; 0] ["xyxx"; "rgrr"; "stss"];
   Decl 4 [1; 1; 0; 0] ["yyxx"; "ggrr"; "ttss"];
   Decl 4 [2; 1; 0; 0] ["zyxx"; "bgrr"; "ptss"];
   Decl 4 [3; 1; 0; 0] ["wyxx"; "agrr"; "qtss"];
   Decl 4 [0; 2; 0; 0] ["xzxx"; "rbrr"; "spss"];
   Decl 4 [1; 2; 0; 0] ["yzxx"; "gbrr"; "tpss"];
   Decl 4 [2; 2; 0; 0] ["zzxx"; "bbrr"; "ppss"];
   Decl 4 [3; 2; 0; 0] ["wzxx"; "abrr"; "qpss"];
   Decl 4 [0; 3; 0; 0] ["xwxx"; "rarr"; "sqss"];
   Decl 4 [1; 3; 0; 0] ["ywxx"; "garr"; "tqss"];
   Decl 4 [2; 3; 0; 0] ["zwxx"; "barr"; "pqss"];
   Decl 4 [3; 3; 0; 0] ["wwxx"; "aarr"; "qqss"];
   Decl 4 [0; 0; 1; 0] ["xxyx"; "rrgr"; "ssts"];
   Decl 4 [1; 0; 1; 0] ["yxyx"; "grgr"; "tsts"];
   Decl 4 [2; 0; 1; 0] ["zxyx"; "brgr"; "psts"];
   Decl 4 [3; 0; 1; 0] ["wxyx"; "argr"; "qsts"];
   Decl 4 [0; 1; 1; 0] ["xyyx"; "rggr"; "stts"];
   Decl 4 [1; 1; 1; 0] ["yyyx"; "gggr"; "ttts"];
   Decl 4 [2; 1; 1; 0] ["zyyx"; "bggr"; "ptts"];
   Decl 4 [3; 1; 1; 0] ["wyyx"; "aggr"; "qtts"];
   Decl 4 [0; 2; 1; 0] ["xzyx"; "rbgr"; "spts"];
   Decl 4 [1; 2; 1; 0] ["yzyx"; "gbgr"; "tpts"];
   Decl 4 [2; 2; 1; 0] ["zzyx"; "bbgr"; "ppts"];
   Decl 4 [3; 2; 1; 0] ["wzyx"; "abgr"; "qpts"];
   Decl 4 [0; 3; 1; 0] ["xwyx"; "ragr"; "sqts"];
   Decl 4 [1; 3; 1; 0] ["ywyx"; "gagr"; "tqts"];
   Decl 4 [2; 3; 1; 0] ["zwyx"; "bagr"; "pqts"];
   Decl 4 [3; 3; 1; 0] ["wwyx"; "aagr"; "qqts"];
   Decl 4 [0; 0; 2; 0] ["xxzx"; "rrbr"; "ssps"];
   Decl 4 [1; 0; 2; 0] ["yxzx"; "grbr"; "tsps"];
   Decl 4 [2; 0; 2; 0] ["zxzx"; "brbr"; "psps"];
   Decl 4 [3; 0; 2; 0] ["wxzx"; "arbr"; "qsps"];
   Decl 4 [0; 1; 2; 0] ["xyzx"; "rgbr"; "stps"];
   Decl 4 [1; 1; 2; 0] ["yyzx"; "ggbr"; "ttps"];
   Decl 4 [2; 1; 2; 0] ["zyzx"; "bgbr"; "ptps"];
   Decl 4 [3; 1; 2; 0] ["wyzx"; "agbr"; "qtps"];
   Decl 4 [0; 2; 2; 0] ["xzzx"; "rbbr"; "spps"];
   Decl 4 [1; 2; 2; 0] ["yzzx"; "gbbr"; "tpps"];
   Decl 4 [2; 2; 2; 0] ["zzzx"; "bbbr"; "ppps"];
   Decl 4 [3; 2; 2; 0] ["wzzx"; "abbr"; "qpps"];
   Decl 4 [0; 3; 2; 0] ["xwzx"; "rabr"; "sqps"];
   Decl 4 [1; 3; 2; 0] ["ywzx"; "gabr"; "tqps"];
   Decl 4 [2; 3; 2; 0] ["zwzx"; "babr"; "pqps"];
   Decl 4 [3; 3; 2; 0] ["wwzx"; "aabr"; "qqps"];
   Decl 4 [0; 0; 3; 0] ["xxwx"; "rrar"; "ssqs"];
   Decl 4 [1; 0; 3; 0] ["yxwx"; "grar"; "tsqs"];
   Decl 4 [2; 0; 3; 0] ["zxwx"; "brar"; "psqs"];
   Decl 4 [3; 0; 3; 0] ["wxwx"; "arar"; "qsqs"];
   Decl 4 [0; 1; 3; 0] ["xywx"; "rgar"; "stqs"];
   Decl 4 [1; 1; 3; 0] ["yywx"; "ggar"; "ttqs"];
   Decl 4 [2; 1; 3; 0] ["zywx"; "bgar"; "ptqs"];
   Decl 4 [3; 1; 3; 0] ["wywx"; "agar"; "qtqs"];
   Decl 4 [0; 2; 3; 0] ["xzwx"; "rbar"; "spqs"];
   Decl 4 [1; 2; 3; 0] ["yzwx"; "gbar"; "tpqs"];
   Decl 4 [2; 2; 3; 0] ["zzwx"; "bbar"; "ppqs"];
   Decl 4 [3; 2; 3; 0] ["wzwx"; "abar"; "qpqs"];
   Decl 4 [0; 3; 3; 0] ["xwwx"; "raar"; "sqqs"];
   Decl 4 [1; 3; 3; 0] ["ywwx"; "gaar"; "tqqs"];
   Decl 4 [2; 3; 3; 0] ["zwwx"; "baar"; "pqqs"];
   Decl 4 [3; 3; 3; 0] ["wwwx"; "aaar"; "qqqs"];
   Decl 4 [0; 0; 0; 1] ["xxxy"; "rrrg"; "ssst"];
   Decl 4 [1; 0; 0; 1] ["yxxy"; "grrg"; "tsst"];
   Decl 4 [2; 0; 0; 1] ["zxxy"; "brrg"; "psst"];
   Decl 4 [3; 0; 0; 1] ["wxxy"; "arrg"; "qsst"];
   Decl 4 [0; 1; 0; 1] ["xyxy"; "rgrg"; "stst"];
   Decl 4 [1; 1; 0; 1] ["yyxy"; "ggrg"; "ttst"];
   Decl 4 [2; 1; 0; 1] ["zyxy"; "bgrg"; "ptst"];
   Decl 4 [3; 1; 0; 1] ["wyxy"; "agrg"; "qtst"];
   Decl 4 [0; 2; 0; 1] ["xzxy"; "rbrg"; "spst"];
   Decl 4 [1; 2; 0; 1] ["yzxy"; "gbrg"; "tpst"];
   Decl 4 [2; 2; 0; 1] ["zzxy"; "bbrg"; "ppst"];
   Decl 4 [3; 2; 0; 1] ["wzxy"; "abrg"; "qpst"];
   Decl 4 [0; 3; 0; 1] ["xwxy"; "rarg"; "sqst"];
   Decl 4 [1; 3; 0; 1] ["ywxy"; "garg"; "tqst"];
   Decl 4 [2; 3; 0; 1] ["zwxy"; "barg"; "pqst"];
   Decl 4 [3; 3; 0; 1] ["wwxy"; "aarg"; "qqst"];
   Decl 4 [0; 0; 1; 1] ["xxyy"; "rrgg"; "sstt"];
   Decl 4 [1; 0; 1; 1] ["yxyy"; "grgg"; "tstt"];
   Decl 4 [2; 0; 1; 1] ["zxyy"; "brgg"; "pstt"];
   Decl 4 [3; 0; 1; 1] ["wxyy"; "argg"; "qstt"];
   Decl 4 [0; 1; 1; 1] ["xyyy"; "rggg"; "sttt"];
   Decl 4 [1; 1; 1; 1] ["yyyy"; "gggg"; "tttt"];
   Decl 4 [2; 1; 1; 1] ["zyyy"; "bggg"; "pttt"];
   Decl 4 [3; 1; 1; 1] ["wyyy"; "aggg"; "qttt"];
   Decl 4 [0; 2; 1; 1] ["xzyy"; "rbgg"; "sptt"];
   Decl 4 [1; 2; 1; 1] ["yzyy"; "gbgg"; "tptt"];
   Decl 4 [2; 2; 1; 1] ["zzyy"; "bbgg"; "pptt"];
   Decl 4 [3; 2; 1; 1] ["wzyy"; "abgg"; "qptt"];
   Decl 4 [0; 3; 1; 1] ["xwyy"; "ragg"; "sqtt"];
   Decl 4 [1; 3; 1; 1] ["ywyy"; "gagg"; "tqtt"];
   Decl 4 [2; 3; 1; 1] ["zwyy"; "bagg"; "pqtt"];
   Decl 4 [3; 3; 1; 1] ["wwyy"; "aagg"; "qqtt"];
   Decl 4 [0; 0; 2; 1] ["xxzy"; "rrbg"; "sspt"];
   Decl 4 [1; 0; 2; 1] ["yxzy"; "grbg"; "tspt"];
   Decl 4 [2; 0; 2; 1] ["zxzy"; "brbg"; "pspt"];
   Decl 4 [3; 0; 2; 1] ["wxzy"; "arbg"; "qspt"];
   Decl 4 [0; 1; 2; 1] ["xyzy"; "rgbg"; "stpt"];
   Decl 4 [1; 1; 2; 1] ["yyzy"; "ggbg"; "ttpt"];
   Decl 4 [2; 1; 2; 1] ["zyzy"; "bgbg"; "ptpt"];
   Decl 4 [3; 1; 2; 1] ["wyzy"; "agbg"; "qtpt"];
   Decl 4 [0; 2; 2; 1] ["xzzy"; "rbbg"; "sppt"];
   Decl 4 [1; 2; 2; 1] ["yzzy"; "gbbg"; "tppt"];
   Decl 4 [2; 2; 2; 1] ["zzzy"; "bbbg"; "pppt"];
   Decl 4 [3; 2; 2; 1] ["wzzy"; "abbg"; "qppt"];
   Decl 4 [0; 3; 2; 1] ["xwzy"; "rabg"; "sqpt"];
   Decl 4 [1; 3; 2; 1] ["ywzy"; "gabg"; "tqpt"];
   Decl 4 [2; 3; 2; 1] ["zwzy"; "babg"; "pqpt"];
   Decl 4 [3; 3; 2; 1] ["wwzy"; "aabg"; "qqpt"];
   Decl 4 [0; 0; 3; 1] ["xxwy"; "rrag"; "ssqt"];
   Decl 4 [1; 0; 3; 1] ["yxwy"; "grag"; "tsqt"];
   Decl 4 [2; 0; 3; 1] ["zxwy"; "brag"; "psqt"];
   Decl 4 [3; 0; 3; 1] ["wxwy"; "arag"; "qsqt"];
   Decl 4 [0; 1; 3; 1] ["xywy"; "rgag"; "stqt"];
   Decl 4 [1; 1; 3; 1] ["yywy"; "ggag"; "ttqt"];
   Decl 4 [2; 1; 3; 1] ["zywy"; "bgag"; "ptqt"];
   Decl 4 [3; 1; 3; 1] ["wywy"; "agag"; "qtqt"];
   Decl 4 [0; 2; 3; 1] ["xzwy"; "rbag"; "spqt"];
   Decl 4 [1; 2; 3; 1] ["yzwy"; "gbag"; "tpqt"];
   Decl 4 [2; 2; 3; 1] ["zzwy"; "bbag"; "ppqt"];
   Decl 4 [3; 2; 3; 1] ["wzwy"; "abag"; "qpqt"];
   Decl 4 [0; 3; 3; 1] ["xwwy"; "raag"; "sqqt"];
   Decl 4 [1; 3; 3; 1] ["ywwy"; "gaag"; "tqqt"];
   Decl 4 [2; 3; 3; 1] ["zwwy"; "baag"; "pqqt"];
   Decl 4 [3; 3; 3; 1] ["wwwy"; "aaag"; "qqqt"];
   Decl 4 [0; 0; 0; 2] ["xxxz"; "rrrb"; "sssp"];
   Decl 4 [1; 0; 0; 2] ["yxxz"; "grrb"; "tssp"];
   Decl 4 [2; 0; 0; 2] ["zxxz"; "brrb"; "pssp"];
   Decl 4 [3; 0; 0; 2] ["wxxz"; "arrb"; "qssp"];
   Decl 4 [0; 1; 0; 2] ["xyxz"; "rgrb"; "stsp"];
   Decl 4 [1; 1; 0; 2] ["yyxz"; "ggrb"; "ttsp"];
   Decl 4 [2; 1; 0; 2] ["zyxz"; "bgrb"; "ptsp"];
   Decl 4 [3; 1; 0; 2] ["wyxz"; "agrb"; "qtsp"];
   Decl 4 [0; 2; 0; 2] ["xzxz"; "rbrb"; "spsp"];
   Decl 4 [1; 2; 0; 2] ["yzxz"; "gbrb"; "tpsp"];
   Decl 4 [2; 2; 0; 2] ["zzxz"; "bbrb"; "ppsp"];
   Decl 4 [3; 2; 0; 2] ["wzxz"; "abrb"; "qpsp"];
   Decl 4 [0; 3; 0; 2] ["xwxz"; "rarb"; "sqsp"];
   Decl 4 [1; 3; 0; 2] ["ywxz"; "garb"; "tqsp"];
   Decl 4 [2; 3; 0; 2] ["zwxz"; "barb"; "pqsp"];
   Decl 4 [3; 3; 0; 2] ["wwxz"; "aarb"; "qqsp"];
   Decl 4 [0; 0; 1; 2] ["xxyz"; "rrgb"; "sstp"];
   Decl 4 [1; 0; 1; 2] ["yxyz"; "grgb"; "tstp"];
   Decl 4 [2; 0; 1; 2] ["zxyz"; "brgb"; "pstp"];
   Decl 4 [3; 0; 1; 2] ["wxyz"; "argb"; "qstp"];
   Decl 4 [0; 1; 1; 2] ["xyyz"; "rggb"; "sttp"];
   Decl 4 [1; 1; 1; 2] ["yyyz"; "gggb"; "tttp"];
   Decl 4 [2; 1; 1; 2] ["zyyz"; "bggb"; "pttp"];
   Decl 4 [3; 1; 1; 2] ["wyyz"; "aggb"; "qttp"];
   Decl 4 [0; 2; 1; 2] ["xzyz"; "rbgb"; "sptp"];
   Decl 4 [1; 2; 1; 2] ["yzyz"; "gbgb"; "tptp"];
   Decl 4 [2; 2; 1; 2] ["zzyz"; "bbgb"; "pptp"];
   Decl 4 [3; 2; 1; 2] ["wzyz"; "abgb"; "qptp"];
   Decl 4 [0; 3; 1; 2] ["xwyz"; "ragb"; "sqtp"];
   Decl 4 [1; 3; 1; 2] ["ywyz"; "gagb"; "tqtp"];
   Decl 4 [2; 3; 1; 2] ["zwyz"; "bagb"; "pqtp"];
   Decl 4 [3; 3; 1; 2] ["wwyz"; "aagb"; "qqtp"];
   Decl 4 [0; 0; 2; 2] ["xxzz"; "rrbb"; "sspp"];
   Decl 4 [1; 0; 2; 2] ["yxzz"; "grbb"; "tspp"];
   Decl 4 [2; 0; 2; 2] ["zxzz"; "brbb"; "pspp"];
   Decl 4 [3; 0; 2; 2] ["wxzz"; "arbb"; "qspp"];
   Decl 4 [0; 1; 2; 2] ["xyzz"; "rgbb"; "stpp"];
   Decl 4 [1; 1; 2; 2] ["yyzz"; "ggbb"; "ttpp"];
   Decl 4 [2; 1; 2; 2] ["zyzz"; "bgbb"; "ptpp"];
   Decl 4 [3; 1; 2; 2] ["wyzz"; "agbb"; "qtpp"];
   Decl 4 [0; 2; 2; 2] ["xzzz"; "rbbb"; "sppp"];
   Decl 4 [1; 2; 2; 2] ["yzzz"; "gbbb"; "tppp"];
   Decl 4 [2; 2; 2; 2] ["zzzz"; "bbbb"; "pppp"];
   Decl 4 [3; 2; 2; 2] ["wzzz"; "abbb"; "qppp"];
   Decl 4 [0; 3; 2; 2] ["xwzz"; "rabb"; "sqpp"];
   Decl 4 [1; 3; 2; 2] ["ywzz"; "gabb"; "tqpp"];
   Decl 4 [2; 3; 2; 2] ["zwzz"; "babb"; "pqpp"];
   Decl 4 [3; 3; 2; 2] ["wwzz"; "aabb"; "qqpp"];
   Decl 4 [0; 0; 3; 2] ["xxwz"; "rrab"; "ssqp"];
   Decl 4 [1; 0; 3; 2] ["yxwz"; "grab"; "tsqp"];
   Decl 4 [2; 0; 3; 2] ["zxwz"; "brab"; "psqp"];
   Decl 4 [3; 0; 3; 2] ["wxwz"; "arab"; "qsqp"];
   Decl 4 [0; 1; 3; 2] ["xywz"; "rgab"; "stqp"];
   Decl 4 [1; 1; 3; 2] ["yywz"; "ggab"; "ttqp"];
   Decl 4 [2; 1; 3; 2] ["zywz"; "bgab"; "ptqp"];
   Decl 4 [3; 1; 3; 2] ["wywz"; "agab"; "qtqp"];
   Decl 4 [0; 2; 3; 2] ["xzwz"; "rbab"; "spqp"];
   Decl 4 [1; 2; 3; 2] ["yzwz"; "gbab"; "tpqp"];
   Decl 4 [2; 2; 3; 2] ["zzwz"; "bbab"; "ppqp"];
   Decl 4 [3; 2; 3; 2] ["wzwz"; "abab"; "qpqp"];
   Decl 4 [0; 3; 3; 2] ["xwwz"; "raab"; "sqqp"];
   Decl 4 [1; 3; 3; 2] ["ywwz"; "gaab"; "tqqp"];
   Decl 4 [2; 3; 3; 2] ["zwwz"; "baab"; "pqqp"];
   Decl 4 [3; 3; 3; 2] ["wwwz"; "aaab"; "qqqp"];
   Decl 4 [0; 0; 0; 3] ["xxxw"; "rrra"; "sssq"];
   Decl 4 [1; 0; 0; 3] ["yxxw"; "grra"; "tssq"];
   Decl 4 [2; 0; 0; 3] ["zxxw"; "brra"; "pssq"];
   Decl 4 [3; 0; 0; 3] ["wxxw"; "arra"; "qssq"];
   Decl 4 [0; 1; 0; 3] ["xyxw"; "rgra"; "stsq"];
   Decl 4 [1; 1; 0; 3] ["yyxw"; "ggra"; "ttsq"];
   Decl 4 [2; 1; 0; 3] ["zyxw"; "bgra"; "ptsq"];
   Decl 4 [3; 1; 0; 3] ["wyxw"; "agra"; "qtsq"];
   Decl 4 [0; 2; 0; 3] ["xzxw"; "rbra"; "spsq"];
   Decl 4 [1; 2; 0; 3] ["yzxw"; "gbra"; "tpsq"];
   Decl 4 [2; 2; 0; 3] ["zzxw"; "bbra"; "ppsq"];
   Decl 4 [3; 2; 0; 3] ["wzxw"; "abra"; "qpsq"];
   Decl 4 [0; 3; 0; 3] ["xwxw"; "rara"; "sqsq"];
   Decl 4 [1; 3; 0; 3] ["ywxw"; "gara"; "tqsq"];
   Decl 4 [2; 3; 0; 3] ["zwxw"; "bara"; "pqsq"];
   Decl 4 [3; 3; 0; 3] ["wwxw"; "aara"; "qqsq"];
   Decl 4 [0; 0; 1; 3] ["xxyw"; "rrga"; "sstq"];
   Decl 4 [1; 0; 1; 3] ["yxyw"; "grga"; "tstq"];
   Decl 4 [2; 0; 1; 3] ["zxyw"; "brga"; "pstq"];
   Decl 4 [3; 0; 1; 3] ["wxyw"; "arga"; "qstq"];
   Decl 4 [0; 1; 1; 3] ["xyyw"; "rgga"; "sttq"];
   Decl 4 [1; 1; 1; 3] ["yyyw"; "ggga"; "tttq"];
   Decl 4 [2; 1; 1; 3] ["zyyw"; "bgga"; "pttq"];
   Decl 4 [3; 1; 1; 3] ["wyyw"; "agga"; "qttq"];
   Decl 4 [0; 2; 1; 3] ["xzyw"; "rbga"; "sptq"];
   Decl 4 [1; 2; 1; 3] ["yzyw"; "gbga"; "tptq"];
   Decl 4 [2; 2; 1; 3] ["zzyw"; "bbga"; "pptq"];
   Decl 4 [3; 2; 1; 3] ["wzyw"; "abga"; "qptq"];
   Decl 4 [0; 3; 1; 3] ["xwyw"; "raga"; "sqtq"];
   Decl 4 [1; 3; 1; 3] ["ywyw"; "gaga"; "tqtq"];
   Decl 4 [2; 3; 1; 3] ["zwyw"; "baga"; "pqtq"];
   Decl 4 [3; 3; 1; 3] ["wwyw"; "aaga"; "qqtq"];
   Decl 4 [0; 0; 2; 3] ["xxzw"; "rrba"; "sspq"];
   Decl 4 [1; 0; 2; 3] ["yxzw"; "grba"; "tspq"];
   Decl 4 [2; 0; 2; 3] ["zxzw"; "brba"; "pspq"];
   Decl 4 [3; 0; 2; 3] ["wxzw"; "arba"; "qspq"];
   Decl 4 [0; 1; 2; 3] ["xyzw"; "rgba"; "stpq"];
   Decl 4 [1; 1; 2; 3] ["yyzw"; "ggba"; "ttpq"];
   Decl 4 [2; 1; 2; 3] ["zyzw"; "bgba"; "ptpq"];
   Decl 4 [3; 1; 2; 3] ["wyzw"; "agba"; "qtpq"];
   Decl 4 [0; 2; 2; 3] ["xzzw"; "rbba"; "sppq"];
   Decl 4 [1; 2; 2; 3] ["yzzw"; "gbba"; "tppq"];
   Decl 4 [2; 2; 2; 3] ["zzzw"; "bbba"; "pppq"];
   Decl 4 [3; 2; 2; 3] ["wzzw"; "abba"; "qppq"];
   Decl 4 [0; 3; 2; 3] ["xwzw"; "raba"; "sqpq"];
   Decl 4 [1; 3; 2; 3] ["ywzw"; "gaba"; "tqpq"];
   Decl 4 [2; 3; 2; 3] ["zwzw"; "baba"; "pqpq"];
   Decl 4 [3; 3; 2; 3] ["wwzw"; "aaba"; "qqpq"];
   Decl 4 [0; 0; 3; 3] ["xxww"; "rraa"; "ssqq"];
   Decl 4 [1; 0; 3; 3] ["yxww"; "graa"; "tsqq"];
   Decl 4 [2; 0; 3; 3] ["zxww"; "braa"; "psqq"];
   Decl 4 [3; 0; 3; 3] ["wxww"; "araa"; "qsqq"];
   Decl 4 [0; 1; 3; 3] ["xyww"; "rgaa"; "stqq"];
   Decl 4 [1; 1; 3; 3] ["yyww"; "ggaa"; "ttqq"];
   Decl 4 [2; 1; 3; 3] ["zyww"; "bgaa"; "ptqq"];
   Decl 4 [3; 1; 3; 3] ["wyww"; "agaa"; "qtqq"];
   Decl 4 [0; 2; 3; 3] ["xzww"; "rbaa"; "spqq"];
   Decl 4 [1; 2; 3; 3] ["yzww"; "gbaa"; "tpqq"];
   Decl 4 [2; 2; 3; 3] ["zzww"; "bbaa"; "ppqq"];
   Decl 4 [3; 2; 3; 3] ["wzww"; "abaa"; "qpqq"];
   Decl 4 [0; 3; 3; 3] ["xwww"; "raaa"; "sqqq"];
   Decl 4 [1; 3; 3; 3] ["ywww"; "gaaa"; "tqqq"];
   Decl 4 [2; 3; 3; 3] ["zwww"; "baaa"; "pqqq"];
   Decl 4 [3; 3; 3; 3] ["wwww"; "aaaa"; "qqqq"]].
(** vec2_access.hpp 132-134: [V{_data[indices]...}], as the list of elements of V *)
Definition shuffle2 {A} (d : decl) (v : vec2 A) : list A := map (el2 v) (d_indices d).
(** vec3_access.hpp 139-141: [V{_data[indices]...}], as the list of elements of V *)
Definition shuffle3 {A} (d : decl) (v : vec3 A) : list A := map (el3 v) (d_indices d).
(** vec4_access.hpp 142-144: [V{_data[indices]...}], as the list of elements of V *)
Definition shuffle4 {A} (d : decl) (v : vec4 A) : list A := map (el4 v) (d_indices d).
