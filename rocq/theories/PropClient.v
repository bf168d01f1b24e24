(** * Properties: programs written on top of the library *)

From Coq Require Import ZArith NArith Bool List String Reals Lia.
From Verif Require Import Scalar Outcome Types Int32 RealInst Cpp CppNames CppProgram CppModel SpecCpp SpecClient.
From Verif Require Import CppTac CppCong CppAgree ClientLib.
From Verif Require Import PfClient.
Import ListNotations.
Local Open Scope string_scope.


(** Any function written in the C++ subset on top of the library (accepted by the
    checker or not) does the same whether the library calls run the source text or
    the model functions. *)
Theorem C87_client_agreement : forall S b n (d : fundef fn) args, (6 < n)%nat ->
  run_client S b n d args = run_fun S fn b (fun g => f_sig (code g)) (model S b) d args.
Proof. exact C87_client_agreement_pf. Qed.
Print Assumptions C87_client_agreement.

(** An accepted function, run on top of the source text of the library with
    arguments of the declared types, never aborts and is never undefined: it
    returns a value of the declared type, every component initialised.  Any
    arithmetic, both builds, any length of program and any number of loop
    iterations. *)
Theorem C87_accepted_never_fails : forall S b n (d : fundef fn) args, accepted d = true ->
  forall2b has_ty (f_sig d) args = true -> (6 < n)%nat ->
  exists t v, f_ret d = RVal t /\ run_client S b n d args = Ret (v, []) /\ has_ty t v = true.
Proof. exact C87_accepted_never_fails_pf. Qed.
Print Assumptions C87_accepted_never_fails.

(** vec3 f(vec3 p, quat q, float dt): turn and scale ten times, keep the first
    component, and normalize the sum if it is long *)
Definition client : fundef fn :=
  Fun ["p"; "q"; "dt"] [Tcls Cvec3; Tcls Cquat; Tfloat] (RVal (Tcls Cvec3)) []
    (Seq (Decl "acc" (Some (Var "p")))
    (Seq (For "i" 0 10
           (Seq (Decl "d" (Some (Call op_mul_quat_vec3 (ECons (Var "q") (ECons (Var "acc") ENil)))))
           (Seq (Mut vec3__op_mul_assign_float (LVar "d") (ECons (Var "dt") ENil))
                (Mut vec3__op_add_assign_vec3 (LVar "acc") (ECons (Var "d") ENil)))))
    (Seq (Assign (LIdx vec3__index (LVar "acc") (UInt 0)) (Read (LFld (LVar "p") 0)))
    (Seq (If (Bin Ogt (Call length_vec3 (ECons (Var "acc") ENil)) (Lit 1 0))
             (Return (Call normalize_vec3 (ECons (Var "acc") ENil))) Skip)
         (Return (Var "acc")))))).
Example C87_ex_accepted : accepted client = true.
Proof. reflexivity. Qed.
Example C87_ex_runs : forall (S : Scalar) b (p : vec3 S) (q : quat S) (dt : S), exists v,
  run_client S b 7 client [eV3 S p; eQ S q; VF dt] = Ret (v, []) /\ has_ty (Tcls Cvec3) v = true.
Proof.
  intros S b p q dt. destruct (C87_accepted_never_fails S b 7 client [eV3 S p; eQ S q; VF dt] eq_refl eq_refl ltac:(lia)) as (t & v & E & H1 & H2).
  injection E as <-. exists v. tauto.
Qed.
(** rejected, and rightly: a subscript past the end, and an uninitialised variable *)
Definition past_end : fundef fn :=
  Fun ["v"] [Tcls Cvec2] (RVal Tfloat) [] (Return (Read (LIdx vec2__index (LVar "v") (UInt 2)))).
Definition no_value : fundef fn :=
  Fun ["v"] [Tcls Cvec2] (RVal (Tcls Cvec2)) [] (Seq (Decl "w" None) (Return (Var "w"))).
Example C87_ex_rejected : accepted past_end = false /\ accepted no_value = false /\
  forall b, run_client RS b 7 past_end [eV2 RS (V2 1 2)%R] = Undefined /\ run_client RS b 7 no_value [eV2 RS (V2 1 2)%R] = Undefined.
Proof. repeat split; destruct b; reflexivity. Qed.
(** functions of the library itself that the checker accepts as they stand *)
Example C87_ex_library : accepted (code inverse_mat3) = true /\ accepted (code rotate_mat4_float_vec3) = true /\
  accepted (code slerp_quat_quat_float) = true /\ accepted (code lookAtRH_vec3_vec3_vec3) = true.
Proof. repeat split. Qed.
