(** * A type checker for programs that use the library

    [check] accepts straight-line and structured code over floats, booleans,
    vectors, matrices and quaternions: declarations, assignments to variables
    and their members, calls of library functions that can neither abort nor be
    undefined, subscripts by a literal in range, conditionals, counted loops and
    returns.  It rejects integer arithmetic, other subscripts, pointers and
    uninitialised declarations. *)
From Coq Require Import ZArith NArith Bool List String.
From Verif Require Import Scalar Outcome Types Cpp CppNames CppProgram SpecCpp.
Import ListNotations.
Local Open Scope string_scope.

Fixpoint ty_eqb (a b : ty) : bool :=
  match a, b with
  | Tfloat, Tfloat | Tint, Tint | Tuint, Tuint | Tbool, Tbool => true
  | Tptr a, Tptr b => ty_eqb a b
  | Tcls c, Tcls d => cls_eqb c d
  | _, _ => false
  end.
Fixpoint tys_eqb (l m : list ty) : bool :=
  match l, m with
  | [], [] => true
  | a :: l, b :: m => ty_eqb a b && tys_eqb l m
  | _, _ => false
  end.

(** functions that always return, with every component initialised *)
Definition safe (f : fn) : bool :=
  negb (can_abort Debug f) && negb (can_be_undefined Debug f) && negb (uninitialised f).

Definition bin_type (op : binop) (a b : ty) : option ty :=
  match a, b with
  | Tfloat, Tfloat =>
      match op with
      | Oadd | Osub | Omul | Odiv => Some Tfloat
      | Olt | Ogt | Ole | Oge | Oeq | One => Some Tbool
      | _ => None
      end
  | Tint, Tint =>
      match op with
      | Olt | Ogt | Ole | Oge | Oeq | One => Some Tbool
      | _ => None
      end
  | _, _ => None
  end.
Definition un_type (op : unop) (a : ty) : option ty :=
  match op, a with
  | Oneg, Tfloat | Oplus, Tfloat => Some Tfloat
  | Oplus, Tint => Some Tint
  | Onot, Tbool => Some Tbool
  | _, _ => None
  end.
Definition conv_type (t a : ty) : option ty :=
  match t, a with
  | Tfloat, Tint => Some Tfloat | Tint, Tbool => Some Tint | Tbool, Tint => Some Tbool
  | _, _ => None
  end.
Definition prim_type (p : prim) (ts : list ty) : option ty :=
  match p, ts with
  | Pfma, [Tfloat; Tfloat; Tfloat] => Some Tfloat
  | (Ppowf | Patan2f), [Tfloat; Tfloat] => Some Tfloat
  | (Pisinf | Pisnan), [Tfloat] => Some Tbool
  | (Pfma | Ppowf | Patan2f | Pabs), _ => None
  | _, [Tfloat] => Some Tfloat
  | _, _ => None
  end.

(** the class a subscript operator belongs to *)
Definition index_of (f : fn) : option cls :=
  match f with
  | vec2__index => Some Cvec2
  | vec3__index => Some Cvec3
  | vec4__index => Some Cvec4
  | ivec2__index => Some Civec2
  | ivec3__index => Some Civec3
  | ivec4__index => Some Civec4
  | bvec2__index => Some Cbvec2
  | bvec3__index => Some Cbvec3
  | bvec4__index => Some Cbvec4
  | mat2__index => Some Cmat2
  | mat3__index => Some Cmat3
  | mat4__index => Some Cmat4
  | quat__index => Some Cquat
  | _ => None
  end.
Definition const_index_of (f : fn) : option cls :=
  match f with
  | vec2__index_const => Some Cvec2
  | vec3__index_const => Some Cvec3
  | vec4__index_const => Some Cvec4
  | ivec2__index_const => Some Civec2
  | ivec3__index_const => Some Civec3
  | ivec4__index_const => Some Civec4
  | bvec2__index_const => Some Cbvec2
  | bvec3__index_const => Some Cbvec3
  | bvec4__index_const => Some Cbvec4
  | mat2__index_const => Some Cmat2
  | mat3__index_const => Some Cmat3
  | mat4__index_const => Some Cmat4
  | quat__index_const => Some Cquat
  | _ => None
  end.
Definition literal_index (es : exprs fn) : option N :=
  match es with ECons _ (ECons (UInt n) ENil) => Some n | _ => None end.

Definition ctx : Type := list (string * ty).
Fixpoint type_in (x : string) (g : ctx) : option ty :=
  match g with
  | [] => None
  | (y, t) :: g => if String.eqb x y then Some t else type_in x g
  end.

Fixpoint type_e (g : ctx) (ex : expr fn) : option ty :=
  match ex with
  | Lit _ _ => Some Tfloat
  | Int _ => Some Tint
  | UInt _ => Some Tuint
  | Bool _ => Some Tbool
  | Read l => type_l g l
  | Un op ex => match type_e g ex with Some t => un_type op t | None => None end
  | Bin op e1 e2 => match type_e g e1, type_e g e2 with Some t, Some u => bin_type op t u | _, _ => None end
  | And e1 e2 | Or e1 e2 => match type_e g e1, type_e g e2 with Some Tbool, Some Tbool => Some Tbool | _, _ => None end
  | Cond c e1 e2 =>
      match type_e g c, type_e g e1, type_e g e2 with
      | Some Tbool, Some t, Some u => if ty_eqb t u then Some t else None
      | _, _, _ => None
      end
  | Call f es =>
      match type_es g es with
      | Some ts =>
          match const_index_of f with
          | Some c =>
              match literal_index es with
              | Some n => if tys_eqb ts [Tcls c; Tuint] then nth_error (fields c) (index n) else None
              | None => None
              end
          | None =>
              match f_ret (code f), f_out (code f) with
              | RVal t, [] => if tys_eqb ts (f_sig (code f)) && safe f then Some t else None
              | _, _ => None
              end
          end
      | None => None
      end
  | Prim p es => match type_es g es with Some ts => prim_type p ts | None => None end
  | Conv t ex => match type_e g ex with Some u => conv_type t u | None => None end
  | New c es => match type_es g es with Some ts => if tys_eqb ts (fields c) then Some (Tcls c) else None | None => None end
  | NewArr _ | Deref _ _ => None
  end
with type_es (g : ctx) (es : exprs fn) : option (list ty) :=
  match es with
  | ENil => Some []
  | ECons ex es => match type_e g ex, type_es g es with Some t, Some ts => Some (t :: ts) | _, _ => None end
  end
with type_l (g : ctx) (l : lval fn) : option ty :=
  match l with
  | LVar x => type_in x g
  | LTmp ex => type_e g ex
  | LFld l i => match type_l g l with Some (Tcls c) => nth_error (fields c) i | _ => None end
  | LIdx f l (UInt n) =>
      match type_l g l, index_of f with
      | Some t, Some c => if ty_eqb t (Tcls c) then nth_error (fields c) (index n) else None
      | _, _ => None
      end
  | LSub _ _ | LIdx _ _ _ => None
  end.

(** not a temporary *)
Fixpoint named (l : lval fn) : bool :=
  match l with LVar _ => true | LFld l _ | LIdx _ l _ => named l | _ => false end.

(** [check r g s]: the declarations in force after [s], if [s] is accepted in a function returning [r] *)
Fixpoint check (r : ty) (g : ctx) (s : stmt fn) : option ctx :=
  match s with
  | Skip => Some g
  | Seq s1 s2 => match check r g s1 with Some g => check r g s2 | None => None end
  | Decl x (Some ex) => match type_e g ex with Some t => Some ((x, t) :: g) | None => None end
  | Assign l ex =>
      match type_l g l, type_e g ex with Some t, Some u => if ty_eqb t u && named l then Some g else None | _, _ => None end
  | Mut f l es =>
      match type_l g l, type_es g es with
      | Some t, Some ts => if tys_eqb (t :: ts) (f_sig (code f)) && tys_eqb [t] (out_types (code f)) && safe f && named l then Some g else None
      | _, _ => None
      end
  | If c s1 s2 =>
      match type_e g c, check r g s1, check r g s2 with
      | Some Tbool, Some g1, Some g2 =>
          if Nat.eqb (List.length g1) (List.length g) && Nat.eqb (List.length g2) (List.length g) then Some g else None
      | _, _, _ => None
      end
  | Block s => match check r g s with Some _ => Some g | None => None end
  | For x _ _ s => match check r ((x, Tint) :: g) s with Some _ => Some g | None => None end
  | Return ex => match type_e g ex with Some t => if ty_eqb t r then Some g else None | None => None end
  | _ => None
  end.
(** the statement cannot be left without returning *)
Fixpoint always (s : stmt fn) : bool :=
  match s with
  | Return _ => true
  | Seq s1 s2 => always s1 || always s2
  | If _ s1 s2 => always s1 && always s2
  | Block s => always s
  | _ => false
  end.

(** an accepted function *)
Definition accepted (d : fundef fn) : bool :=
  Nat.eqb (List.length (f_params d)) (List.length (f_sig d)) &&
  match f_ret d, f_out d with
  | RVal t, [] =>
      match check t (combine (f_params d) (f_sig d)) (f_body d) with Some _ => always (f_body d) | None => false end
  | _, _ => false
  end.

(** a client function run on top of the source of the library *)
Definition run_client (S : Scalar) (b : build) (n : nat) (d : fundef fn) (args : list (val S)) : outcome (result S) :=
  run_fun S fn b (fun g => f_sig (code g)) (run S fn code b n) d args.
