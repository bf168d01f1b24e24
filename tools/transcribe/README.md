Transcribes the functions of /repo/src into `rocq/theories/CppNames.v`, `CppCode1-3.v`,
`CppProgram.v` and `CppModel.v`, and writes the proof scripts `CppTac.v` and `CppAgree*.v`.
The outputs are committed; building the development does not need these scripts.

* `parse.py`: tokens and grammar of the C++ subset used, macro expansion.
* `gen.py`: types, overload resolution, implicit conversions; function bodies as syntax trees.
* `emit.py`: pairs each function with a model function by the cited lines and the type.
  A wrong pair would make the agreement proof fail.
* `run.sh`: runs everything (needs the compiled `Model*.v`, whose types are read back).
* `hash_ptr.py`: the same for hash.cpp, hash.hpp and type_ptr.cpp, on its own; writes `CppHashCode.v`.
* `accessors.py`: the same for the accessor templates and the unions of the vector headers; writes `CppAccessCode.v`.
