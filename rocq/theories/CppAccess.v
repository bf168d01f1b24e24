(** * The accessor templates of include/zcm/detail: syntax and semantics

    [CppAccessCode.v] contains the class templates of vec2_access.hpp, vec3_access.hpp and
    vec4_access.hpp and the unions of the six vector headers in the syntax defined here.  [None] means
    that the program is ill-formed (it is rejected by the compiler); [Some o] that it compiles and has
    the outcome [o].  All members of one union share their storage, so that an accessor is the array of
    the vector. *)
From Coq Require Import Bool List String Arith.
From Verif Require Import Outcome.
Import ListNotations.
Local Open Scope string_scope.

(** ** Syntax *)
Inductive aop : Type := AoAdd | AoSub | AoMul | AoDiv | AoRem | AoOr | AoAnd | AoXor | AoShl | AoShr.
(** names of members *)
Inductive aname : Type :=
| Nassign                                 (* operator= *)
| Ncompound (op : aop)                    (* operator+= and so on *)
| Ninc (dec : bool)                       (* operator++, operator-- *)
| Nconv (t : string).                     (* operator t *)
Inductive aexpr : Type :=
| AVar (x : string)
| AQual (c : string) (args : list string) (x : string)    (* c<args>::x *)
| AIdx (e i : aexpr)                      (* e[i] *)
| APre (dec : bool) (e : aexpr)           (* ++e, --e *)
| APost (dec : bool) (e : aexpr)          (* e++, e-- *)
| APack (t : string) (e : aexpr).         (* t{e...} *)
Inductive astmt : Type :=
| AAssign (e1 e2 : aexpr)
| ACompound (op : aop) (e1 e2 : aexpr)
| AReturn (e : aexpr).
Record amember : Type := Member {
  m_ret : option (string * bool);         (* None: void; the flag: by reference *)
  m_name : aname;
  m_params : list (string * string);      (* type and name; the name is empty if there is none *)
  m_body : list astmt }.
Inductive tparam : Type := PType (x : string) | PInt (x : string) | PPack (x : string).
Record aclass : Type := Class {
  c_name : string;
  c_params : list tparam;
  c_base : option (string * list string);
  c_data : option (string * string * nat);     (* T x[n] *)
  c_members : list amember }.
(** template<...> ret format_as(const cls<args>& a) { return static_cast<to>(a); } *)
Record aformat : Type := Format {
  f_params : list tparam; f_ret : string; f_cls : string; f_args : list string; f_to : string }.

(** template arguments *)
Inductive targ : Type := TTy (t : string) | TIx (i : nat).
Inductive tbound : Type := BTy (t : string) | BIx (i : nat) | BPack (l : list nat).
Definition binds := list (string * tbound).
(** the members of a union: cls<args> n1, n2, n3; *)
Record umember : Type := UM { u_cls : string; u_args : list targ; u_names : list string }.
(** struct v { union { elem _data[n]; members }; }; *)
Record aunion : Type := Union { un_name : string; un_elem : string; un_size : nat; un_members : list umember }.

(** ** Equality tests *)
Definition aop_eqb (a b : aop) : bool :=
  match a, b with
  | AoAdd, AoAdd | AoSub, AoSub | AoMul, AoMul | AoDiv, AoDiv | AoRem, AoRem
  | AoOr, AoOr | AoAnd, AoAnd | AoXor, AoXor | AoShl, AoShl | AoShr, AoShr => true
  | _, _ => false
  end.
Definition targ_eqb (a b : targ) : bool :=
  match a, b with TTy s, TTy t => String.eqb s t | TIx i, TIx j => Nat.eqb i j | _, _ => false end.
Fixpoint list_eqb {A} (f : A -> A -> bool) (l m : list A) : bool :=
  match l, m with
  | [], [] => true
  | a :: l, b :: m => f a b && list_eqb f l m
  | _, _ => false
  end.

(** ** Templates *)
Fixpoint blook (b : binds) (x : string) : option tbound :=
  match b with [] => None | (y, v) :: b => if String.eqb x y then Some v else blook b x end.
(** a type name is a template parameter or stands for itself *)
Definition tname (b : binds) (t : string) : string :=
  match blook b t with Some (BTy s) => s | _ => t end.
Fixpoint indices_of (l : list targ) : option (list nat) :=
  match l with
  | [] => Some []
  | TIx i :: l => match indices_of l with Some r => Some (i :: r) | None => None end
  | TTy _ :: _ => None
  end.
Fixpoint bind_args (ps : list tparam) (l : list targ) : option binds :=
  match ps, l with
  | [], [] => Some []
  | [PPack x], l => match indices_of l with Some r => Some [(x, BPack r)] | None => None end
  | PType x :: ps, TTy t :: l => match bind_args ps l with Some b => Some ((x, BTy t) :: b) | None => None end
  | PInt x :: ps, TIx i :: l => match bind_args ps l with Some b => Some ((x, BIx i) :: b) | None => None end
  | _, _ => None
  end.
(** the arguments c<x, y> given by names of template parameters *)
Fixpoint args_of (b : binds) (xs : list string) : option (list targ) :=
  match xs with
  | [] => Some []
  | x :: xs =>
      match blook b x, args_of b xs with
      | Some (BTy t), Some l => Some (TTy t :: l)
      | Some (BIx i), Some l => Some (TIx i :: l)
      | _, _ => None
      end
  end.
Fixpoint find_class (p : list aclass) (c : string) : option aclass :=
  match p with [] => None | k :: p => if String.eqb (c_name k) c then Some k else find_class p c end.
Definition base_of (p : list aclass) (k : aclass) (b : binds) : option (aclass * binds) :=
  match c_base k with
  | Some (c, xs) =>
      match find_class p c, args_of b xs with
      | Some k', Some l => match bind_args (c_params k') l with Some b' => Some (k', b') | None => None end
      | _, _ => None
      end
  | None => None
  end.

(** ** Sequencing of ill-formed programs and outcomes *)
Definition comp (A : Type) : Type := option (outcome A).
Definition cret {A} (a : A) : comp A := Some (Ret a).
Definition cbind {A B} (m : comp A) (k : A -> comp B) : comp B :=
  match m with
  | None => None
  | Some (Ret a) => k a
  | Some AssertFail => Some AssertFail
  | Some Undefined => Some Undefined
  end.

Section Sem.
Variable p : list aclass.
Context {A : Type}.
(** The element type: its name, its binary operators ([None]: the type has no such operator) and the
    value that ++ adds. *)
Variable elem : string.
Variable arith : aop -> A -> A -> comp A.
Variable one : A.

(** results of a call: nothing, a value, a reference to an element of the array, an object of class t *)
Inductive ares : Type := RNone | RVal (a : A) | RRef (i : nat) | RObj (t : string) (l : list A).
(** arguments: none (prefix operators, conversions), the int that marks a postfix operator, a scalar of
    the element type, an accessor *)
Inductive aarg : Type := GNone | GPostfix | GVal (a : A) | GAcc (c : string) (args : list targ) (l : list A).

Fixpoint put (l : list A) (i : nat) (a : A) : list A :=
  match l, i with
  | [], _ => []
  | _ :: l, O => a :: l
  | b :: l, S i => b :: put l i a
  end.

(** *** Expressions in the body of a member of [k], instantiated with [b]; [e] holds the parameter *)
Section Body.
Variable k : aclass.
Variable e : option (string * A).

(** the number of elements of the array that an expression names.  An unqualified name is not looked
    up in a base class that depends on a template parameter. *)
Definition array_of (b : binds) (x : aexpr) : option nat :=
  match x with
  | AVar x => match c_data k with
              | Some (t, y, n) => if String.eqb x y && String.eqb (tname b t) elem then Some n else None
              | None => None
              end
  | AQual c xs x =>
      match c_base k, base_of p k b with
      | Some (c', xs'), Some (k', b') =>
          if String.eqb c c' && list_eqb String.eqb xs xs' then
            match c_data k' with
            | Some (t, y, n) => if String.eqb x y && String.eqb (tname b' t) elem then Some n else None
            | None => None
            end
          else None
      | _, _ => None
      end
  | _ => None
  end.
Definition index_of (b : binds) (x : aexpr) : option nat :=
  match x with AVar x => match blook b x with Some (BIx i) => Some i | _ => None end | _ => None end.
(** lvalues: the array afterwards and the element designated *)
Fixpoint lval (b : binds) (x : aexpr) (s : list A) : comp (list A * nat) :=
  match x with
  | AIdx d i =>
      match array_of b d, index_of b i with
      | Some n, Some j => if Nat.ltb j n then cret (s, j) else Some Undefined
      | _, _ => None
      end
  | APre dec x =>
      cbind (lval b x s) (fun q =>
        match nth_error (fst q) (snd q) with
        | None => Some Undefined
        | Some a => cbind (arith (if dec then AoSub else AoAdd) a one) (fun r => cret (put (fst q) (snd q) r, snd q))
        end)
  | _ => None
  end.
Definition read (s : list A) (i : nat) : comp A := match nth_error s i with Some a => cret a | None => Some Undefined end.
(** scalar values *)
Definition sval (b : binds) (x : aexpr) (s : list A) : comp (list A * A) :=
  match x with
  | AVar y => match e with Some (z, a) => if String.eqb y z then cret (s, a) else None | None => None end
  | APost dec x =>
      cbind (lval b x s) (fun q =>
        cbind (read (fst q) (snd q)) (fun a =>
          cbind (arith (if dec then AoSub else AoAdd) a one) (fun r => cret (put (fst q) (snd q) r, a))))
  | _ => cbind (lval b x s) (fun q => cbind (read (fst q) (snd q)) (fun a => cret (fst q, a)))
  end.
(** t{x...}: the pack is that of [b]; the expansion binds its name to one element after the other *)
Fixpoint expand (b : binds) (y : string) (x : aexpr) (l : list nat) (s : list A) : comp (list A) :=
  match l with
  | [] => cret []
  | i :: l => cbind (sval ((y, BIx i) :: b) x s) (fun q => cbind (expand b y x l (fst q)) (fun r => cret (snd q :: r)))
  end.
Fixpoint the_pack (b : binds) : option (string * list nat) :=
  match b with [] => None | (y, BPack l) :: _ => Some (y, l) | _ :: b => the_pack b end.

Fixpoint exec (b : binds) (ret : option (string * bool)) (body : list astmt) (s : list A) : comp (list A * ares) :=
  match body with
  | [] => match ret with None => cret (s, RNone) | Some _ => None end
  | AAssign x y :: body =>
      cbind (sval b y s) (fun v => cbind (lval b x (fst v)) (fun q => exec b ret body (put (fst q) (snd q) (snd v))))
  | ACompound op x y :: body =>
      cbind (sval b y s) (fun v => cbind (lval b x (fst v)) (fun q =>
        cbind (read (fst q) (snd q)) (fun a =>
          cbind (arith op a (snd v)) (fun r => exec b ret body (put (fst q) (snd q) r)))))
  | AReturn x :: _ =>
      match ret with
      | None => None
      | Some (t, true) =>
          if String.eqb (tname b t) elem then cbind (lval b x s) (fun q => cret (fst q, RRef (snd q))) else None
      | Some (t, false) =>
          match x with
          | APack u y =>
              if String.eqb (tname b t) (tname b u) then
                match the_pack b with
                | Some (z, l) => cbind (expand b z y l s) (fun r => cret (s, RObj (tname b u) r))
                | None => None
                end
              else None
          | _ => if String.eqb (tname b t) elem then cbind (sval b x s) (fun v => cret (fst v, RVal (snd v))) else None
          end
      end
  end.
End Body.

(** *** Member lookup and overload resolution *)
Definition name_matches (b : binds) (m : amember) (n : aname) : bool :=
  match m_name m, n with
  | Nassign, Nassign => true
  | Ncompound o, Ncompound o' => aop_eqb o o'
  | Ninc d, Ninc d' => Bool.eqb d d'
  | Nconv t, Nconv t' => String.eqb (tname b t) t'
  | _, _ => false
  end.
Definition params_match (b : binds) (m : amember) (g : aarg) : bool :=
  match m_params m, g with
  | [], GNone => true
  | [(t, x)], GPostfix => String.eqb t "int" && String.eqb x ""
  | [(t, x)], GVal _ => String.eqb (tname b t) elem && negb (String.eqb x "")
  | _, _ => false
  end.
Definition declares (b : binds) (k : aclass) (n : aname) : bool :=
  match n with
  | Nassign => true       (* every class has an implicitly declared copy assignment operator *)
  | _ => existsb (fun m => name_matches b m n) (c_members k)
  end.
(** a name declared in a class hides the same name in its base class *)
Fixpoint find_member (fuel : nat) (k : aclass) (b : binds) (n : aname) (g : aarg) : option (aclass * binds * amember) :=
  if declares b k n then
    match filter (fun m => name_matches b m n && params_match b m g) (c_members k) with
    | [m] => Some (k, b, m)
    | _ => None
    end
  else
    match fuel, base_of p k b with
    | S f, Some (k', b') => find_member f k' b' n g
    | _, _ => None
    end.
Definition instance (c : string) (l : list targ) : option (aclass * binds) :=
  match find_class p c with
  | Some k => match bind_args (c_params k) l with Some b => Some (k, b) | None => None end
  | None => None
  end.
Definition invoke (q : aclass * binds * amember) (g : aarg) (s : list A) : comp (list A * ares) :=
  match q with (k, b, m) =>
    exec k (match m_params m, g with [(_, x)], GVal a => Some (x, a) | _, _ => None end) b
         (match m_name m with Nconv t => Some (t, false) | _ => m_ret m end) (m_body m) s
  end.
(** a call without an accessor argument *)
Definition call_plain (c : string) (l : list targ) (n : aname) (g : aarg) (s : list A) : comp (list A * ares) :=
  match instance c l with
  | Some (k, b) => match find_member (List.length p) k b n g with Some q => invoke q g s | None => None end
  | None => None
  end.
(** x.n(g) for an accessor x of class c<l>.  Assignment from an accessor of the same class is the copy
    assignment, which copies the array; another accessor is converted to its value first. *)
Definition call (c : string) (l : list targ) (n : aname) (g : aarg) (s : list A) : comp (list A * ares) :=
  match g with
  | GAcc c' l' s' =>
      match n with
      | Nassign =>
          if String.eqb c c' && list_eqb targ_eqb l l' then cret (s', RNone)
          else cbind (call_plain c' l' (Nconv elem) GNone s') (fun q =>
                 match snd q with RVal a => call_plain c l n (GVal a) s | _ => None end)
      | _ => cbind (call_plain c' l' (Nconv elem) GNone s') (fun q =>
               match snd q with RVal a => call_plain c l n (GVal a) s | _ => None end)
      end
  | _ => call_plain c l n g s
  end.

(** *** Members of a union by name *)
Fixpoint umember_of (l : list umember) (x : string) : option umember :=
  match l with
  | [] => None
  | u :: l => if existsb (String.eqb x) (u_names u) then Some u else umember_of l x
  end.
(** v.x used with the member function n *)
Definition use (un : aunion) (x : string) (n : aname) (g : aarg) (s : list A) : comp (list A * ares) :=
  match umember_of (un_members un) x with
  | Some u => call (u_cls u) (u_args u) n g s
  | None => None
  end.

(** format_as(a) for an accessor a of class c<l>: the overload for exactly this class; the cast calls
    the conversion function *)
Definition format (fs : list aformat) (c : string) (l : list targ) (s : list A) : comp ares :=
  match filter (fun f => String.eqb (f_cls f) c) fs, find_class p c with
  | [f], Some k =>
      match bind_args (f_params f) l with
      | Some b =>
          if String.eqb (tname b (f_ret f)) (tname b (f_to f)) then
            cbind (call_plain c l (Nconv (tname b (f_to f))) GNone s) (fun q => cret (snd q))
          else None
      | None => None
      end
  | _, _ => None
  end.
End Sem.
Arguments RNone {A}. Arguments RVal {A}. Arguments RRef {A}. Arguments RObj {A}.
Arguments GNone {A}. Arguments GPostfix {A}. Arguments GVal {A}. Arguments GAcc {A}.
Arguments ares A : clear implicits. Arguments aarg A : clear implicits.
