(** * The C++ subset the library is written in: syntax and semantics

    [CppCode1.v] to [CppCode3.v] contain the functions of /repo/src, statement by statement, in
    the syntax defined here.  Names are resolved as the compiler does it:
    overloads are chosen, implicit conversions are written out as [Conv] or as
    constructor calls, macros and the applyOp templates are expanded.  A switch,
    all of whose cases return, is a chain of [If]s.  [F] is the set of function names.

    A value of class type is the list of its fields.  Storage that has not been
    written is [Junk]; reading it is undefined.  A parameter passed by reference
    to const is passed by value: no function here writes to anything but its own
    locals and its reference parameters, and where two parameters can refer to
    the same object the aliased call is a [run_bound]. *)
From Coq Require Import ZArith NArith Bool List String.
From Verif Require Import Scalar Outcome Types Int32.
Import ListNotations.
Local Open Scope outcome_scope.

(** ** Types *)
Inductive cls : Type :=
  Cvec2 | Cvec3 | Cvec4 | Civec2 | Civec3 | Civec4 | Cbvec2 | Cbvec3 | Cbvec4
| Cmat2 | Cmat3 | Cmat4 | Cquat.
Inductive ty : Type := Tfloat | Tint | Tuint | Tbool | Tptr (t : ty) | Tcls (c : cls).

(** ** Built-in operators, and the functions of the C and C++ standard libraries that the code calls *)
Inductive unop : Type := Oneg | Oplus | Onot.
Inductive binop : Type :=
  Oadd | Osub | Omul | Odiv | Orem | Oand | Oor | Oxor | Oshl | Oshr | Olt | Ogt | Ole | Oge | Oeq | One.
Inductive prim : Type :=
  Pfabsf | Pceilf | Pfloorf | Pfma | Proundf | Pnearbyint | Ptruncf | Pisinf | Pisnan | Pabs
| Psqrtf | Ppowf | Plogf | Plog2f | Pexpf | Pcbrtf
| Pcosf | Psinf | Ptanf | Pacosf | Pasinf | Patanf | Patan2f | Pcoshf | Psinhf | Ptanhf | Pacoshf | Pasinhf | Patanhf.

(** ** Syntax *)
Section Syntax.
Variable F : Type.

Inductive expr : Type :=
| Lit (m e : Z)                          (* float literal m * 10^e *)
| Int (n : Z)
| UInt (n : N)
| Bool (b : bool)
| Read (l : lval)
| Un (op : unop) (e : expr)
| Bin (op : binop) (e1 e2 : expr)
| And (e1 e2 : expr)
| Or (e1 e2 : expr)
| Cond (c e1 e2 : expr)
| Call (f : F) (es : exprs)              (* function, constructor or const member function *)
| Prim (p : prim) (es : exprs)
| Conv (t : ty) (e : expr)               (* built-in conversion *)
| New (c : cls) (es : exprs)             (* an object made of its fields; ENil: not initialised *)
| NewArr (es : exprs)                    (* an array *)
| Deref (e : expr) (i : nat)             (* p[i] *)
with exprs : Type :=
| ENil
| ECons (e : expr) (es : exprs)
with lval : Type :=
| LVar (x : string)
| LTmp (e : expr)                        (* a temporary *)
| LFld (l : lval) (i : nat)              (* member number i *)
| LSub (l : lval) (e : expr)             (* built-in subscript of a member array or a local array *)
| LIdx (f : F) (l : lval) (e : expr).    (* member operator[] returning a reference *)

Inductive stmt : Type :=
| Skip
| Seq (s1 s2 : stmt)
| Decl (x : string) (e : option expr)    (* None: not initialised *)
| Assign (l : lval) (e : expr)
| Mut (f : F) (l : lval) (es : exprs)    (* call of a member function that changes the object *)
| If (c : expr) (s1 s2 : stmt)
| Block (s : stmt)
| For (x : string) (lo : Z) (n : nat) (s : stmt)   (* for (int x = lo; x < lo + n; ++x) s *)
| Fall                                   (* the end of a function that should have returned a value *)
| Made                                   (* the end of a constructor: the result is the object *)
| Return (e : expr)
| ReturnRef (l : lval)
| Assert (e : expr).

(** [f_out]: the parameters passed by non-const reference, the object of a
    member function among them.  A constructor returns the object. *)
Inductive returns : Type := RVoid | RVal (t : ty) | RRef (t : ty).
Record fundef : Type := Fun {
  f_params : list string;
  f_sig : list ty;
  f_ret : returns;
  f_out : list string;
  f_body : stmt
}.
End Syntax.

Arguments Lit {F}. Arguments Int {F}. Arguments UInt {F}. Arguments Bool {F}. Arguments Read {F}. Arguments Un {F}. Arguments Bin {F}.
Arguments And {F}. Arguments Or {F}. Arguments Cond {F}. Arguments Call {F}. Arguments Prim {F}. Arguments Conv {F}.
Arguments New {F}. Arguments NewArr {F}. Arguments Deref {F}. Arguments ENil {F}. Arguments ECons {F}.
Arguments LVar {F}. Arguments LTmp {F}. Arguments LFld {F}. Arguments LSub {F}. Arguments LIdx {F}.
Arguments Skip {F}. Arguments Seq {F}. Arguments Decl {F}. Arguments Assign {F}. Arguments Mut {F}. Arguments If {F}.
Arguments Block {F}. Arguments For {F}. Arguments Fall {F}. Arguments Made {F}. Arguments Return {F}. Arguments ReturnRef {F}. Arguments Assert {F}.
Arguments Fun {F}. Arguments f_params {F}. Arguments f_sig {F}. Arguments f_ret {F}. Arguments f_out {F}. Arguments f_body {F}.

Declare Scope cpp_scope.
Delimit Scope cpp_scope with cpp.
Notation "s1 ;; s2" := (Seq s1 s2) (at level 70, right associativity) : cpp_scope.
Notation "<< >>" := ENil : cpp_scope.
Notation "<< x ; .. ; y >>" := (ECons x .. (ECons y ENil) ..) : cpp_scope.
Definition Var {F} (x : string) : expr F := Read (LVar x).

(** ** Values *)
Inductive val (S : Scalar) : Type :=
| VF (x : S)
| VI (n : Z)
| VU (n : N)
| VB (b : bool)
| VP (p : option (list (val S)))         (* None: null *)
| Obj (c : cls) (fs : list (val S))
| Arr (fs : list (val S))
| Ref (p : list nat)                     (* a reference to a part of the object the member function was called on *)
| Junk
| Void.
Arguments VF {S}. Arguments VI {S}. Arguments VU {S}. Arguments VB {S}. Arguments VP {S}. Arguments Obj {S}. Arguments Arr {S}.
Arguments Ref {S}. Arguments Junk {S}. Arguments Void {S}.

(** the number of elements of a vector class *)
Definition cls_eqb (a b : cls) : bool :=
  match a, b with
  | Cvec2, Cvec2 | Cvec3, Cvec3 | Cvec4, Cvec4 | Civec2, Civec2 | Civec3, Civec3 | Civec4, Civec4
  | Cbvec2, Cbvec2 | Cbvec3, Cbvec3 | Cbvec4, Cbvec4 | Cmat2, Cmat2 | Cmat3, Cmat3 | Cmat4, Cmat4 | Cquat, Cquat => true
  | _, _ => false
  end.
(** the fields of a class in storage order *)
Definition fields (c : cls) : list ty :=
  match c with
  | Cvec2 => [Tfloat; Tfloat] | Cvec3 => [Tfloat; Tfloat; Tfloat] | Cvec4 => [Tfloat; Tfloat; Tfloat; Tfloat]
  | Civec2 => [Tint; Tint] | Civec3 => [Tint; Tint; Tint] | Civec4 => [Tint; Tint; Tint; Tint]
  | Cbvec2 => [Tbool; Tbool] | Cbvec3 => [Tbool; Tbool; Tbool] | Cbvec4 => [Tbool; Tbool; Tbool; Tbool]
  | Cmat2 => [Tcls Cvec2; Tcls Cvec2] | Cmat3 => [Tcls Cvec3; Tcls Cvec3; Tcls Cvec3]
  | Cmat4 => [Tcls Cvec4; Tcls Cvec4; Tcls Cvec4; Tcls Cvec4]
  | Cquat => [Tfloat; Tfloat; Tfloat; Tfloat]
  end.

Section Values.
Variable S : Scalar.

(** [forall2b p l m]: same length and [p] pointwise *)
Fixpoint forall2b {A B} (p : A -> B -> bool) (l : list A) (m : list B) : bool :=
  match l, m with
  | [], [] => true
  | a :: l, b :: m => p a b && forall2b p l m
  | _, _ => false
  end.

(** a value of scalar type, of a class with scalar fields, of any type *)
Definition ty_scalar (t : ty) (v : val S) : bool :=
  match t, v with
  | Tfloat, VF _ | Tint, VI _ | Tuint, VU _ | Tbool, VB _ => true
  | _, _ => false
  end.
Definition ty_vec (t : ty) (v : val S) : bool :=
  match t, v with
  | Tcls c, Obj c' fs => cls_eqb c c' && forall2b ty_scalar (fields c) fs
  | _, _ => ty_scalar t v
  end.
Definition has_ty (t : ty) (v : val S) : bool :=
  match t, v with
  | Tcls c, Obj c' fs => cls_eqb c c' && forall2b ty_vec (fields c) fs
  | Tptr t, VP None => true
  | Tptr t, VP (Some l) => forallb (ty_scalar t) l
  | _, _ => ty_scalar t v
  end.

(** no part of the value is uninitialised *)
Fixpoint defined (v : val S) : bool :=
  match v with
  | Junk => false
  | Obj _ fs | Arr fs => forallb defined fs
  | _ => true
  end.

(** the part of a value at a path, and its replacement *)
Fixpoint get (v : val S) (p : list nat) : option (val S) :=
  match p with
  | [] => Some v
  | i :: p =>
      match v with
      | Obj _ fs | Arr fs => match nth_error fs i with Some w => get w p | None => None end
      | _ => None
      end
  end.
Fixpoint upd {A} (l : list A) (i : nat) (a : A) : list A :=
  match l, i with
  | [], _ => []
  | _ :: l, O => a :: l
  | b :: l, Datatypes.S i => b :: upd l i a
  end.
Fixpoint put (v : val S) (p : list nat) (w : val S) : option (val S) :=
  match p with
  | [] => Some w
  | i :: p =>
      match v with
      | Obj c fs =>
          match nth_error fs i with
          | Some u => match put u p w with Some u => Some (Obj c (upd fs i u)) | None => None end
          | None => None
          end
      | Arr fs =>
          match nth_error fs i with
          | Some u => match put u p w with Some u => Some (Arr (upd fs i u)) | None => None end
          | None => None
          end
      | _ => None
      end
  end.

(** a subscript as a position in a list of fields; from 4 on it is past the end of every object *)
Definition index (n : N) : nat :=
  match n with 0%N => 0 | 1%N => 1 | 2%N => 2 | 3%N => 3 | _ => 4 end.
(** conversion to a 32-bit unsigned number *)
Definition wrapu32 (n : Z) : Z := Z.modulo n (2 ^ 32).

(** an uninitialised object *)
Definition blank (c : cls) : val S := Obj c (map (fun _ => Junk) (fields c)).

(** *** Built-in operations; ill-typed uses are undefined (the compiler rejects them) *)
Definition float_op (op : binop) (x y : S) : outcome (val S) :=
  match op with
  | Oadd => Ret (VF (sadd x y)) | Osub => Ret (VF (ssub x y)) | Omul => Ret (VF (smul x y)) | Odiv => Ret (VF (sdiv x y))
  | Olt => Ret (VB (slt x y)) | Ogt => Ret (VB (sgt x y)) | Ole => Ret (VB (sle x y)) | Oge => Ret (VB (sge x y))
  | Oeq => Ret (VB (seq x y)) | One => Ret (VB (negb (seq x y)))
  | _ => Undefined
  end.
Definition int_result (m : outcome Z) : outcome (val S) := do n <- m; Ret (VI n).
Definition int_op (op : binop) (x y : Z) : outcome (val S) :=
  match op with
  | Oadd => int_result (i32_add x y) | Osub => int_result (i32_sub x y) | Omul => int_result (i32_mul x y)
  | Odiv => int_result (i32_div x y) | Orem => int_result (i32_rem x y)
  | Oand => int_result (i32_and x y) | Oor => int_result (i32_or x y) | Oxor => int_result (i32_xor x y)
  | Oshl => int_result (i32_shl x y) | Oshr => int_result (i32_shr x y)
  | Olt => Ret (VB (Z.ltb x y)) | Ogt => Ret (VB (Z.gtb x y)) | Ole => Ret (VB (Z.leb x y)) | Oge => Ret (VB (Z.geb x y))
  | Oeq => Ret (VB (Z.eqb x y)) | One => Ret (VB (negb (Z.eqb x y)))
  end.
Definition uint_op (op : binop) (x y : N) : outcome (val S) :=
  match op with
  | Olt => Ret (VB (N.ltb x y)) | Oeq => Ret (VB (N.eqb x y))
  | _ => Undefined
  end.
Definition bin_op (op : binop) (v w : val S) : outcome (val S) :=
  match v, w with
  | VF x, VF y => float_op op x y
  | VI x, VI y => int_op op x y
  | VU x, VU y => uint_op op x y
  | _, _ => Undefined
  end.
Definition un_op (op : unop) (v : val S) : outcome (val S) :=
  match op, v with
  | Oneg, VF x => Ret (VF (sneg x))
  | Oneg, VI n => int_result (i32_neg n)
  | Oplus, VF x => Ret (VF x)
  | Oplus, VI n => Ret (VI n)
  | Onot, VB b => Ret (VB (negb b))
  | _, _ => Undefined
  end.
Definition conv (t : ty) (v : val S) : outcome (val S) :=
  match t, v with
  | Tfloat, VI n => Ret (VF (sofZ n))
  | Tint, VB b => Ret (VI (Z.b2z b))
  | Tbool, VI n => Ret (VB (negb (Z.eqb n 0)))
  | Tbool, VP p => Ret (VB (match p with Some _ => true | None => false end))
  | Tuint, VI n => Ret (VU (match n with Zneg _ => Z.to_N (wrapu32 n) | _ => Z.to_N n end))
  | _, _ => Undefined
  end.
Definition prim_op (p : prim) (vs : list (val S)) : outcome (val S) :=
  match p, vs with
  | Pfabsf, [VF x] => Ret (VF (sabs x)) | Pceilf, [VF x] => Ret (VF (sceil x)) | Pfloorf, [VF x] => Ret (VF (sfloor x))
  | Pfma, [VF x; VF y; VF z] => Ret (VF (sfma x y z))
  | Proundf, [VF x] => Ret (VF (sround x)) | Pnearbyint, [VF x] => Ret (VF (snearbyint x)) | Ptruncf, [VF x] => Ret (VF (strunc x))
  | Pisinf, [VF x] => Ret (VB (sisinf x)) | Pisnan, [VF x] => Ret (VB (sisnan x))
  | Pabs, [VI n] => int_result (chk (Z.abs n))
  | Psqrtf, [VF x] => Ret (VF (ssqrt x)) | Ppowf, [VF x; VF y] => Ret (VF (mpow x y))
  | Plogf, [VF x] => Ret (VF (mlog x)) | Plog2f, [VF x] => Ret (VF (mlog2 x)) | Pexpf, [VF x] => Ret (VF (mexp x)) | Pcbrtf, [VF x] => Ret (VF (mcbrt x))
  | Pcosf, [VF x] => Ret (VF (mcos x)) | Psinf, [VF x] => Ret (VF (msin x)) | Ptanf, [VF x] => Ret (VF (mtan x))
  | Pacosf, [VF x] => Ret (VF (macos x)) | Pasinf, [VF x] => Ret (VF (masin x)) | Patanf, [VF x] => Ret (VF (matan x)) | Patan2f, [VF x; VF y] => Ret (VF (matan2 x y))
  | Pcoshf, [VF x] => Ret (VF (mcosh x)) | Psinhf, [VF x] => Ret (VF (msinh x)) | Ptanhf, [VF x] => Ret (VF (mtanh x))
  | Pacoshf, [VF x] => Ret (VF (macosh x)) | Pasinhf, [VF x] => Ret (VF (masinh x)) | Patanhf, [VF x] => Ret (VF (matanh x))
  | _, _ => Undefined
  end.
End Values.
Arguments has_ty {S}. Arguments defined {S}. Arguments get {S}. Arguments put {S}. Arguments blank {S}. Arguments bin_op {S}. Arguments un_op {S}. Arguments conv {S}. Arguments prim_op {S}.
Arguments ty_scalar {S}. Arguments ty_vec {S}.

(** ** Semantics *)
Section Semantics.
Variable S : Scalar.
Variable F : Type.
Variable b : build.
(** the parameter types of a function, and what a call of it returns: the
    returned value and the new values of the reference parameters *)
Definition result : Type := (val S * list (val S))%type.
Variable sig : F -> list ty.
Variable call : F -> list (val S) -> outcome result.

(** A name stands for its own storage or, for a reference, for a part of another variable. *)
Inductive binding : Type := BVal (v : val S) | BRef (x : string) (p : list nat).
Definition env : Type := list (string * binding).
Fixpoint lookup (x : string) (en : env) : option binding :=
  match en with
  | [] => None
  | (y, v) :: en => if String.eqb x y then Some v else lookup x en
  end.
Fixpoint change (x : string) (v : val S) (en : env) : env :=
  match en with
  | [] => []
  | (y, u) :: en => if String.eqb x y then (y, BVal v) :: en else (y, u) :: change x v en
  end.

(** where an lvalue is: a variable or a temporary, and a path into it *)
Inductive place : Type := PVar (x : string) | PTmp (v : val S).
Definition fetch (en : env) (a : place) (p : list nat) : outcome (val S) :=
  match (match a with
         | PVar x => match lookup x en with Some (BVal v) => get v p | _ => None end
         | PTmp v => get v p
         end) with
  | Some v => Ret v
  | None => Undefined
  end.
Definition store (en : env) (a : place) (p : list nat) (w : val S) : outcome env :=
  match a with
  | PVar x =>
      match lookup x en with
      | Some (BVal v) => match put v p w with Some v => Ret (change x v en) | None => Undefined end
      | _ => Undefined
      end
  | PTmp _ => Undefined
  end.

Definition do_call (f : F) (vs : list (val S)) : outcome result :=
  if forall2b has_ty (sig f) vs then call f vs else Undefined.

(** Expressions are evaluated from left to right; [k] is what happens next. *)
Fixpoint eval (en : env) (e : expr F) (k : val S -> outcome result) : outcome result :=
  match e with
  | Lit m x => k (VF (slit m x))
  | Int n => k (VI n)
  | UInt n => k (VU n)
  | Bool c => k (VB c)
  | Read l => locate en l (fun a p => do v <- fetch en a p; if defined v then k v else Undefined)
  | Un op e => eval en e (fun v => do r <- un_op op v; k r)
  | Bin op e1 e2 => eval en e1 (fun v => eval en e2 (fun w => do r <- bin_op op v w; k r))
  | And e1 e2 => eval en e1 (fun v => match v with VB c => if c then eval en e2 k else k (VB false) | _ => Undefined end)
  | Or e1 e2 => eval en e1 (fun v => match v with VB c => if c then k (VB true) else eval en e2 k | _ => Undefined end)
  | Cond c e1 e2 => eval en c (fun v => match v with VB c => if c then eval en e1 k else eval en e2 k | _ => Undefined end)
  | Call f es => evals en es (fun vs => do r <- do_call f vs; match r with (v, []) => k v | _ => Undefined end)
  | Prim p es => evals en es (fun vs => do r <- prim_op p vs; k r)
  | Conv t e => eval en e (fun v => do r <- conv t v; k r)
  | New c es => evals en es (fun vs => k (match vs with [] => blank c | _ => Obj c vs end))
  | NewArr es => evals en es (fun vs => k (Arr vs))
  | Deref e i => eval en e (fun v => match v with VP p => do r <- deref p i; k r | _ => Undefined end)
  end
with evals (en : env) (es : exprs F) (k : list (val S) -> outcome result) : outcome result :=
  match es with
  | ENil => k []
  | ECons e es => eval en e (fun v => evals en es (fun vs => k (v :: vs)))
  end
with locate (en : env) (l : lval F) (k : place -> list nat -> outcome result) : outcome result :=
  match l with
  | LVar x =>
      match lookup x en with
      | Some (BVal _) => k (PVar x) []
      | Some (BRef y p) => k (PVar y) p
      | None => Undefined
      end
  | LTmp e => eval en e (fun v => k (PTmp v) [])
  | LFld l i => locate en l (fun a p => k a (p ++ [i]))
  | LSub l e =>
      locate en l (fun a p => eval en e (fun v =>
        match v with
        | VU n => k a (p ++ [index n])
        | VI n => match n with Zneg _ => Undefined | _ => k a (p ++ [index (Z.to_N n)]) end
        | _ => Undefined
        end))
  | LIdx f l e =>
      locate en l (fun a p => eval en e (fun i =>
        do v <- fetch en a p;
        do r <- do_call f [v; i];
        match r with (Ref q, []) => k a (p ++ q) | _ => Undefined end))
  end.

(** Statements; [k] receives the environment and the returned value, if any. *)
Fixpoint exec (s : stmt F) (en : env) (k : env -> option (val S) -> outcome result) : outcome result :=
  match s with
  | Skip => k en None
  | Seq s1 s2 => exec s1 en (fun en r => match r with None => exec s2 en k | Some _ => k en r end)
  | Decl x None => k ((x, BVal Junk) :: en) None
  | Decl x (Some e) => eval en e (fun v => k ((x, BVal v) :: en) None)
  | Assign l e => eval en e (fun v => locate en l (fun a p => do en' <- store en a p v; k en' None))
  | Mut f l es =>
      evals en es (fun vs => locate en l (fun a p =>
        do v <- fetch en a p;
        do r <- do_call f (v :: vs);
        match r with
        | (_, [v']) => do en' <- store en a p v'; k en' None
        | _ => Undefined
        end))
  | If c s1 s2 =>
      eval en c (fun v => match v with VB c => if c then exec s1 en k else exec s2 en k | _ => Undefined end)
  | Block s => exec s en (fun en' r => k (skipn (List.length en' - List.length en) en') r)
  | For x lo n s =>
      (fix loop (n : nat) (i : Z) (en : env) {struct n} : outcome result :=
         match n with
         | O => k en None
         | Datatypes.S n =>
             exec s ((x, BVal (VI i)) :: en) (fun en' r =>
               let en' := skipn (List.length en' - List.length en) en' in
               match r with None => loop n (Z.succ i) en' | Some _ => k en' r end)
         end) n lo en
  | Fall => Undefined
  | Made => do v <- fetch en (PVar "this") []; k en (Some v)
  | Return e => eval en e (fun v => k en (Some v))
  | ReturnRef l =>
      locate en l (fun a p =>
        do v <- fetch en a p;
        match a with
        | PVar x => if String.eqb x "this" then k en (Some (Ref p)) else Undefined
        | PTmp _ => Undefined
        end)
  | Assert e =>
      match b with
      | Debug => eval en e (fun v => match v with VB c => if c then k en None else AssertFail | _ => Undefined end)
      | Release => k en None
      end
  end.

(** the values of the reference parameters at the end *)
Fixpoint outs (xs : list string) (en : env) : option (list (val S)) :=
  match xs with
  | [] => Some []
  | x :: xs =>
      match lookup x en, outs xs en with
      | Some (BVal v), Some vs => Some (v :: vs)
      | Some (BRef y p), Some vs =>
          match lookup y en with
          | Some (BVal v) => match get v p with Some v => Some (v :: vs) | None => None end
          | _ => None
          end
      | _, _ => None
      end
  end.
Definition leave (d : fundef F) (en : env) (r : option (val S)) : outcome result :=
  match outs (f_out d) en with
  | Some vs => Ret (match r with Some v => v | None => Void end, vs)
  | None => Undefined
  end.
(** a call with the given values of the parameters *)
Definition run_fun (d : fundef F) (vs : list (val S)) : outcome result :=
  exec (f_body d) (combine (f_params d) (map BVal vs)) (leave d).
(** a call with the given bindings: a reference parameter may refer to another parameter *)
Definition run_bound (d : fundef F) (bs : list binding) : outcome result :=
  exec (f_body d) (combine (f_params d) bs) (leave d).
End Semantics.

(** ** A program run with a bound on the depth of calls; running out is [Undefined]. *)
Fixpoint run (S : Scalar) (F : Type) (def : F -> fundef F) (b : build) (n : nat) (f : F) (vs : list (val S)) : outcome (result S) :=
  match n with
  | O => Undefined
  | Datatypes.S n => run_fun S F b (fun g => f_sig (def g)) (run S F def b n) (def f) vs
  end.
