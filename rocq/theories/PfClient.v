(** * Proofs: programs written on top of the library *)
From Coq Require Import ZArith NArith Bool List String Reals Lia.
From Verif Require Import Scalar Outcome Types Int32 RealInst Cpp CppNames CppProgram CppModel SpecCpp SpecClient.
From Verif Require Import CppTac CppCong CppAgree ClientLib.
Import ListNotations.
Local Open Scope string_scope.
(*HEADER END*)

Lemma rank_bound : forall f, (rank f <= 6)%nat.
Proof. intro f. destruct f; cbv [rank]; lia. Qed.

Lemma client_model : forall S b n (d : fundef fn) args, (6 < n)%nat ->
  run_client S b n d args = run_fun S fn b (fun g => f_sig (code g)) (model S b) d args.
Proof.
  intros S b n d args Hn. unfold run_client. apply run_fun_cong with (p := fun _ => true); [|apply all_calls_s].
  intros f vs _ H. apply run_model; [exact H|]. pose proof (rank_bound f). lia.
Qed.

Ltac subscript n := destruct n as [|[[[]|[]|]|[[]|[]|]|]].
Lemma model_index : forall S b f c n (v : val S) t, index_of f = Some c -> nth_error (fields c) (index n) = Some t -> has_ty (Tcls c) v = true ->
  model S b f [v; VU n] = Ret (Ref [index n], []).
Proof.
  intros S b f c n v t Hf Hn Hv. destruct f; try discriminate Hf; injection Hf as <-; splitv Hv; subscript n; try discriminate Hn; destruct b; reflexivity.
Qed.
Lemma model_const_index : forall S b f c n (v : val S) t, const_index_of f = Some c -> nth_error (fields c) (index n) = Some t -> has_ty (Tcls c) v = true ->
  exists w, model S b f [v; VU n] = Ret (w, []) /\ has_ty t w = true.
Proof.
  intros S b f c n v t Hf Hn Hv.
  destruct f; try discriminate Hf; injection Hf as <-; splitv Hv; subscript n; try discriminate Hn; injection Hn as <-;
    (eexists; split; [destruct b; reflexivity|reflexivity]).
Qed.
Lemma model_safe : forall S b f (vs : list (val S)), safe f = true -> forall2b has_ty (f_sig (code f)) vs = true ->
  exists r, model S b f vs = Ret r /\ result_ok f vs r = true.
Proof.
  intros S b f vs Hs H. unfold safe in Hs. rewrite !andb_true_iff, !negb_true_iff in Hs. destruct Hs as [[A U] I].
  pose proof (sound_all f S b vs H) as D. destruct (model S b f vs) as [r| |].
  - exists r. split; [reflexivity|]. rewrite I in D. exact D.
  - destruct b; [congruence|discriminate D].
  - change (can_be_undefined b f) with (can_be_undefined Debug f) in D. congruence.
Qed.
Lemma typed_env : forall S xs ts (vs : list (val S)), List.length xs = List.length ts -> forall2b has_ty ts vs = true ->
  env_ok S (combine xs ts) (combine xs (map (BVal S) vs)).
Proof.
  intros S xs. induction xs as [|x xs IH]; intros [|t ts] [|v vs] L H; try discriminate L; try discriminate H; [constructor|].
  cbn in *. apply andb_true_iff in H. destruct H as [H1 H2]. constructor; [|apply IH; [congruence|exact H2]].
  split; [reflexivity|]. exists v. tauto.
Qed.

(** Any function written in the C++ subset on top of the library (accepted by the
    checker or not) does the same whether the library calls run the source text or
    the model functions. *)
Lemma C87_client_agreement_pf : forall S b n (d : fundef fn) args, (6 < n)%nat ->
  run_client S b n d args = run_fun S fn b (fun g => f_sig (code g)) (model S b) d args.
Proof. exact client_model. Qed.

(** An accepted function, run on top of the source text of the library with
    arguments of the declared types, never aborts and is never undefined: it
    returns a value of the declared type, every component initialised.  Any
    arithmetic, both builds, any length of program and any number of loop
    iterations. *)
Lemma C87_accepted_never_fails_pf : forall S b n (d : fundef fn) args, accepted d = true ->
  forall2b has_ty (f_sig d) args = true -> (6 < n)%nat ->
  exists t v, f_ret d = RVal t /\ run_client S b n d args = Ret (v, []) /\ has_ty t v = true.
Proof.
  intros S b n d args Ha H Hn. rewrite client_model by exact Hn. unfold accepted in Ha.
  apply andb_true_iff in Ha. destruct Ha as [L Ha]. apply PeanoNat.Nat.eqb_eq in L.
  destruct (f_ret d) as [|t|]; try discriminate Ha. destruct (f_out d) as [|] eqn:FO; [|discriminate Ha].
  destruct (check t (combine (f_params d) (f_sig d)) (f_body d)) as [g'|] eqn:C; [|discriminate Ha].
  set (P := fun o : outcome (result S) => exists v, o = Ret (v, []) /\ has_ty t v = true).
  assert (HP : P (run_fun S fn b (fun g => f_sig (code g)) (model S b) d args)).
  { unfold run_fun.
    apply (exec_ok S b (model S b) (model_safe S b) (fun f c n v t H1 H2 H3 => model_index S b f c n v t H1 H2 H3)
             (fun f c n v t H1 H2 H3 => model_const_index S b f c n v t H1 H2 H3) P t (f_body d) _ g' C).
    - apply typed_env; assumption.
    - intros en' [v|] HL; unfold leave; rewrite FO; cbn [outs].
      + destruct HL as [H1 _]. exists v. split; [reflexivity|exact H1].
      + destruct HL as [_ H1]. congruence. }
  destruct HP as (v & E & Hv). exists t, v. rewrite E. tauto.
Qed.

(*PROPS
(** vec3 f(vec3 p, quat q, float dt): turn and scale ten times, keep the first
    component, and normalize the sum if it is long *)
Definition client : fundef fn :=
  Fun ["p"; "q"; "dt"] [Tcls Cvec3; Tcls Cquat; Tfloat] (RVal (Tcls Cvec3)) []
    (Seq (Decl "acc" (Some (Var "p")))
    (Seq (For "i" 0 10
           (Seq (Decl "d" (Some (Call op_mul_quat_vec3 (ECons (Var "q") (ECons (Var "acc") ENil)))))
           (Seq (Mut vec3__op_mul_assign_float (LVar "d") (ECons (Var "dt") ENil))
                (Mut vec3__op_add_assign_vec3 (LVar "acc") (ECons (Var "d") ENil)))))
    (Seq (Assign (LIdx vec3__index (LVar "acc") (UInt 0)) (Read (LFld (LVar "p") 0)))
    (Seq (If (Bin Ogt (Call length_vec3 (ECons (Var "acc") ENil)) (Lit 1 0))
             (Return (Call normalize_vec3 (ECons (Var "acc") ENil))) Skip)
         (Return (Var "acc")))))).
Example C87_ex_accepted : accepted client = true.
Proof. reflexivity. Qed.
Example C87_ex_runs : forall (S : Scalar) b (p : vec3 S) (q : quat S) (dt : S), exists v,
  run_client S b 7 client [eV3 S p; eQ S q; VF dt] = Ret (v, []) /\ has_ty (Tcls Cvec3) v = true.
Proof.
  intros S b p q dt. destruct (C87_accepted_never_fails S b 7 client [eV3 S p; eQ S q; VF dt] eq_refl eq_refl ltac:(lia)) as (t & v & E & H1 & H2).
  injection E as <-. exists v. tauto.
Qed.
(** rejected, and rightly: a subscript past the end, and an uninitialised variable *)
Definition past_end : fundef fn :=
  Fun ["v"] [Tcls Cvec2] (RVal Tfloat) [] (Return (Read (LIdx vec2__index (LVar "v") (UInt 2)))).
Definition no_value : fundef fn :=
  Fun ["v"] [Tcls Cvec2] (RVal (Tcls Cvec2)) [] (Seq (Decl "w" None) (Return (Var "w"))).
Example C87_ex_rejected : accepted past_end = false /\ accepted no_value = false /\
  forall b, run_client RS b 7 past_end [eV2 RS (V2 1 2)%R] = Undefined /\ run_client RS b 7 no_value [eV2 RS (V2 1 2)%R] = Undefined.
Proof. repeat split; destruct b; reflexivity. Qed.
(** functions of the library itself that the checker accepts as they stand *)
Example C87_ex_library : accepted (code inverse_mat3) = true /\ accepted (code rotate_mat4_float_vec3) = true /\
  accepted (code slerp_quat_quat_float) = true /\ accepted (code lookAtRH_vec3_vec3_vec3) = true.
Proof. repeat split. Qed.
PROPS*)
