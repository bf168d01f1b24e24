(** * The C++ subset of src/hash.cpp and src/type_ptr.cpp: syntax and semantics

    [CppHashCode.v] contains the functions of these files in the syntax defined here.  They need
    64-bit arithmetic, the memory image of a float and addresses, none of which occurs in the rest
    of the library ([Cpp.v]).  A float is its memory image.  Overloads are resolved by the semantics,
    from the type of the argument; the types of operands decide the usual arithmetic conversions.
    int and unsigned have 32 bits, unsigned long long and size_t 64, as in [ModelHash.v]. *)
From Coq Require Import ZArith Bool List String.
From Verif Require Import Outcome Cpp.
Import ListNotations.
Local Open Scope outcome_scope.
Local Open Scope Z_scope.

(** ** Syntax *)
Inductive hname : Type := Nhash | Nfloat_hash | Nstd_hash | Nvalue_ptr | Nconst_value_ptr.
Inductive hop : Type := HOr | HXor | HShl | HMul.
Inductive hexpr : Type :=
| HVar (x : string)
| HInt (n : Z)                           (* literal of type int *)
| HULL (n : Z)                           (* literal of type unsigned long long *)
| HSizeof (t : ty)
| HFld (e : hexpr) (x : string)          (* e.x *)
| HSub (e : hexpr) (i : hexpr)           (* e[i]: array or member operator[] *)
| HNot (e : hexpr)                       (* ~e *)
| HBin (op : hop) (e1 e2 : hexpr)
| HCond (c e1 e2 : hexpr)                (* c ? e1 : e2; both branches have the same type here *)
| HCall (f : hname) (e : hexpr)
| HAddr (e : hexpr).                     (* &e *)
Inductive hstmt : Type :=
| HAuto (x : string) (e : hexpr)         (* auto x = e; *)
| HDecl (t : ty) (x : string)            (* t x; *)
| HMemcpy (d s : string) (n : hexpr)     (* std::memcpy(&d, &s, n); *)
| HReturn (e : hexpr).
Record hfun : Type := HFun { h_name : hname; h_type : ty; h_param : string; h_body : list hstmt }.

(** ** Values *)
Inductive hval : Type :=
| HVF (image : Z)
| HVB (b : bool)
| HVI (n : Z)
| HVU (n : Z)
| HVL (n : Z)
| HVO (c : cls) (fs : list hval)         (* the elements of a vector or quaternion, the columns of a matrix *)
| HVA (fs : list hval)                   (* array *)
| HVP (fs : list hval)                   (* pointer: the scalars stored from the address on, up to the end of the object *)
| HVJ (t : ty).                          (* not initialised *)
Definition hty (v : hval) : option ty :=
  match v with
  | HVF _ => Some Tfloat | HVB _ => Some Tbool | HVI _ => Some Tint | HVU _ => Some Tuint
  | HVO c _ => Some (Tcls c)
  | _ => None
  end.
Definition hty_eqb (a b : ty) : bool :=
  match a, b with
  | Tfloat, Tfloat | Tbool, Tbool | Tint, Tint | Tuint, Tuint => true
  | Tcls c, Tcls d => cls_eqb c d
  | _, _ => false
  end.
Definition hname_eqb (a b : hname) : bool :=
  match a, b with
  | Nhash, Nhash | Nfloat_hash, Nfloat_hash | Nstd_hash, Nstd_hash | Nvalue_ptr, Nvalue_ptr | Nconst_value_ptr, Nconst_value_ptr => true
  | _, _ => false
  end.

(** ** Arithmetic *)
Definition wrap64 (z : Z) : Z := z mod 2 ^ 64.
Definition wrap32 (z : Z) : Z := z mod 2 ^ 32.
Definition mul64 (a b : Z) : Z := wrap64 (a * b).
Definition shl64 (a n : Z) : Z := wrap64 (Z.shiftl a n).
Definition not64 (a : Z) : Z := wrap64 (Z.lnot a).
(** conversion of an integer to unsigned long long *)
Definition to_ull (v : hval) : option Z :=
  match v with
  | HVB b => Some (if b then 1 else 0)
  | HVI n => Some (wrap64 n)
  | HVU n => Some n
  | HVL n => Some n
  | _ => None
  end.
Definition is_ull (v : hval) : bool := match v with HVL _ => true | _ => false end.
(** An operator with an unsigned long long operand converts the other one; << takes the type of its
    left operand and is undefined if the amount is not below the width.  Operations on two smaller
    integers do not occur and are given no meaning. *)
Definition hbin (op : hop) (v w : hval) : outcome hval :=
  match op with
  | HShl => match v, to_ull w with
            | HVL a, Some n => if n <? 64 then Ret (HVL (shl64 a n)) else Undefined
            | _, _ => Undefined
            end
  | _ => if is_ull v || is_ull w then
           match to_ull v, to_ull w with
           | Some a, Some b =>
               match op with
               | HOr => Ret (HVL (Z.lor a b))
               | HXor => Ret (HVL (Z.lxor a b))
               | _ => Ret (HVL (mul64 a b))
               end
           | _, _ => Undefined
           end
         else Undefined
  end.

(** ** Members *)
Definition field_no (x : string) : option nat :=
  if String.eqb x "x" then Some 0%nat else if String.eqb x "y" then Some 1%nat
  else if String.eqb x "z" then Some 2%nat else if String.eqb x "w" then Some 3%nat else None.
Definition is_mat (c : cls) : bool := match c with Cmat2 | Cmat3 | Cmat4 => true | _ => false end.
Definition pick (fs : list hval) (i : nat) : outcome hval := match nth_error fs i with Some v => Ret v | None => Undefined end.
Definition hfld (v : hval) (x : string) : outcome hval :=
  match v with
  | HVO c fs => if is_mat c then (if String.eqb x "_columns" then Ret (HVA fs) else Undefined)
                else match field_no x with Some i => pick fs i | None => Undefined end
  | _ => Undefined
  end.
(** operator[] of a vector is the element, of a matrix the column (C03, C39) *)
Definition hsub (v : hval) (i : nat) : outcome hval :=
  match v with HVO _ fs | HVA fs => pick fs i | _ => Undefined end.
(** the scalars of an object in storage order: members, elements and columns are contiguous *)
Fixpoint leaves (v : hval) : list hval :=
  match v with
  | HVO _ fs | HVA fs => flat_map leaves fs
  | _ => [v]
  end.

(** ** Evaluation *)
Definition henv := list (string * hval).
Fixpoint hlook (r : henv) (x : string) : outcome hval :=
  match r with
  | [] => Undefined
  | (y, v) :: r => if String.eqb x y then Ret v else hlook r x
  end.
Definition initialised (v : hval) : outcome hval := match v with HVJ _ => Undefined | _ => Ret v end.

(** the object a designator is part of, and the number of scalars stored in it before the designated part *)
Section Place.
Variable r : henv.
Fixpoint hplace (e : hexpr) : outcome (hval * hval * nat) :=
  let part (q : hval * hval * nat) (fs : list hval) (i : nat) :=
    do w <- pick fs i; Ret (fst (fst q), w, (snd q + List.length (flat_map leaves (firstn i fs)))%nat) in
  match e with
  | HVar x => do v <- hlook r x; Ret (v, v, 0%nat)
  | HFld e x =>
      do q <- hplace e;
      match snd (fst q) with
      | HVO c fs => if is_mat c then (if String.eqb x "_columns" then Ret (fst (fst q), HVA fs, snd q) else Undefined)
                    else match field_no x with Some i => part q fs i | None => Undefined end
      | _ => Undefined
      end
  | HSub e (HInt i) =>
      do q <- hplace e;
      match snd (fst q) with
      | HVO _ fs | HVA fs => if i <? 0 then Undefined else part q fs (Z.to_nat i)
      | _ => Undefined
      end
  | _ => Undefined
  end.
End Place.

Section Eval.
Variable call : hname -> hval -> outcome hval.
Fixpoint heval (r : henv) (e : hexpr) : outcome hval :=
  match e with
  | HVar x => do v <- hlook r x; initialised v
  | HInt n => Ret (HVI n)
  | HULL n => Ret (HVL n)
  | HSizeof t => match t with Tfloat | Tint | Tuint => Ret (HVL 4) | Tbool => Ret (HVL 1) | _ => Undefined end
  | HFld e x => do v <- heval r e; hfld v x
  | HSub e i =>
      do v <- heval r e; do n <- heval r i;
      match n with HVI z => if z <? 0 then Undefined else hsub v (Z.to_nat z) | _ => Undefined end
  | HNot e => do v <- heval r e; match v with HVL n => Ret (HVL (not64 n)) | _ => Undefined end
  | HBin op e1 e2 => do v <- heval r e1; do w <- heval r e2; hbin op v w
  | HCond c e1 e2 => do v <- heval r c; match v with HVB b => if b then heval r e1 else heval r e2 | _ => Undefined end
  | HCall f e => do v <- heval r e; call f v
  | HAddr e => do q <- hplace r e; Ret (HVP (skipn (snd q) (leaves (fst (fst q)))))
  end.
(** memcpy of the four bytes of a float into an unsigned; any other use is given no meaning *)
Definition hmemcpy (r : henv) (d s : string) (n : hval) : outcome henv :=
  do v <- hlook r d; do w <- hlook r s;
  match v, w, n with
  | HVJ Tuint, HVF b, HVL 4 => Ret ((d, HVU b) :: r)
  | HVU _, HVF b, HVL 4 => Ret ((d, HVU b) :: r)
  | _, _, _ => Undefined
  end.
Fixpoint hexec (r : henv) (l : list hstmt) : outcome hval :=
  match l with
  | [] => Undefined
  | HAuto x e :: l => do v <- heval r e; hexec ((x, v) :: r) l
  | HDecl t x :: l => hexec ((x, HVJ t) :: r) l
  | HMemcpy d s n :: l => do k <- heval r n; do r <- hmemcpy r d s k; hexec r l
  | HReturn e :: _ => heval r e
  end.
End Eval.

(** the overload for an argument of exactly the parameter's type *)
Definition resolve (p : list hfun) (f : hname) (t : ty) : option hfun :=
  find (fun d => hname_eqb (h_name d) f && hty_eqb (h_type d) t) p.
(** a call, with calls nested at most [n] deep *)
Fixpoint hrun (p : list hfun) (n : nat) (f : hname) (v : hval) : outcome hval :=
  match n with
  | O => Undefined
  | S n =>
      match hty v with
      | Some t => match resolve p f t with
                  | Some d => hexec (hrun p n) [(h_param d, v)] (h_body d)
                  | None => Undefined
                  end
      | None => Undefined
      end
  end.
