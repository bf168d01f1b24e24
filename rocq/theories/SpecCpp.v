(** * Vocabulary for statements about the source text: types of results, functions that can fail, calls with an aliased argument *)
From Coq Require Import ZArith NArith Bool List String.
From Verif Require Import Scalar Outcome Types Int32 Cpp CppNames CppProgram.
Import ListNotations.
Local Open Scope string_scope.

(** a call of a function of the library: its body and the bodies of the functions it calls *)
Definition call_source (S : Scalar) (b : build) (f : fn) (args : list (val S)) : outcome (result S) :=
  run S fn code b (Datatypes.S (rank f)) f args.

(** the arguments have the types of the parameters *)
Definition typed_args {S : Scalar} (f : fn) (args : list (val S)) : Prop :=
  forall2b has_ty (f_sig (code f)) args = true.

(** ** The result of a call has the declared type and is initialised *)
Definition returned_ok {S : Scalar} (r : returns) (args : list (val S)) (v : val S) : bool :=
  match r, v with
  | RVoid, Void => true
  | RVal t, v => has_ty t v
  | RRef t, Ref p =>
      match args with
      | this :: _ => match get this p with Some w => has_ty t w | None => false end
      | [] => false
      end
  | _, _ => false
  end.
Fixpoint type_of (x : string) (xs : list string) (ts : list ty) : ty :=
  match xs, ts with
  | y :: xs, t :: ts => if String.eqb x y then t else type_of x xs ts
  | _, _ => Tptr Tuint
  end.
Definition out_types (d : fundef fn) : list ty := map (fun x => type_of x (f_params d) (f_sig d)) (f_out d).
Definition result_ok {S : Scalar} (f : fn) (args : list (val S)) (r : result S) : bool :=
  returned_ok (f_ret (code f)) args (fst r) && forall2b has_ty (out_types (code f)) (snd r).

(** the constructors that leave the components uninitialised *)
Definition uninitialised (f : fn) : bool :=
  match f with
  | vec2__no_init_t | vec3__no_init_t | vec4__no_init_t | ivec2__no_init_t | ivec3__no_init_t | ivec4__no_init_t | quat__no_init_t => true
  | _ => false
  end.

(** ** Functions that can abort (an assertion fails: an index, a pointer, or
    one of seven functions with an assertion of their own), and functions that
    can be undefined (integer arithmetic, an index, a pointer, or the
    constructor of a mat3 from a mat2) *)
Definition takes (p : ty -> bool) (f : fn) : bool := existsb p (f_sig (code f)).
Definition can_abort (b : build) (f : fn) : bool :=
  match b with
  | Debug =>
      takes (fun t => match t with Tuint | Tptr _ => true | _ => false end) f ||
      match f with
      | mat3__mat2
      | perspectiveRH_ZO_float_float_float_float | perspectiveRH_NO_float_float_float_float
      | perspectiveLH_ZO_float_float_float_float | perspectiveLH_NO_float_float_float_float
      | lerp_quat_quat_float | nlerp_quat_quat_float => true
      | _ => false
      end
  | Release => false
  end.
Definition can_be_undefined (b : build) (f : fn) : bool :=
  takes (fun t => match t with Tint | Tuint | Tptr _ | Tcls Civec2 | Tcls Civec3 | Tcls Civec4 => true | _ => false end) f ||
  match f with mat3__mat2 => true | _ => false end.

(** ** Compound assignments between objects of the same class *)
Definition compound (f : fn) : option cls :=
  match f_sig (code f), f_out (code f) with
  | [Tcls c; Tcls c'], ["this"] => if cls_eqb c c' then Some c else None
  | _, _ => None
  end.
(** a call in which a reference parameter may refer to another parameter *)
Definition call_bound (S : Scalar) (b : build) (f : fn) (bs : list (binding S)) : outcome (result S) :=
  run_bound S fn b (fun g => f_sig (code g)) (run S fn code b (rank f)) (code f) bs.
(** [x op= x]: the argument is a reference to the object itself *)
Definition call_on_itself (S : Scalar) (b : build) (f : fn) (this : val S) : outcome (result S) :=
  call_bound S b f [BVal S this; BRef S "this" []].
