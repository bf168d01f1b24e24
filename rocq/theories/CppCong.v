(** * Proofs about the C++ semantics: a statement depends on the called functions only *)
From Coq Require Import ZArith NArith Bool List String Lia.
From Verif Require Import Scalar Outcome Types Int32 Cpp.
Import ListNotations.

Scheme expr_mut := Induction for expr Sort Prop
  with exprs_mut := Induction for exprs Sort Prop
  with lval_mut := Induction for lval Sort Prop.
Combined Scheme expr_all from expr_mut, exprs_mut, lval_mut.

Section Calls.
Variable F : Type.
(** every function called satisfies [p] *)
Variable p : F -> bool.
Fixpoint calls_e (e : expr F) : bool :=
  match e with
  | Lit _ _ | Int _ | UInt _ | Bool _ => true
  | Read l => calls_l l
  | Un _ e | Conv _ e | Deref e _ => calls_e e
  | Bin _ e1 e2 | And e1 e2 | Or e1 e2 => calls_e e1 && calls_e e2
  | Cond c e1 e2 => calls_e c && calls_e e1 && calls_e e2
  | Call f es => p f && calls_es es
  | Prim _ es | New _ es | NewArr es => calls_es es
  end
with calls_es (es : exprs F) : bool :=
  match es with ENil => true | ECons e es => calls_e e && calls_es es end
with calls_l (l : lval F) : bool :=
  match l with
  | LVar _ => true
  | LTmp e => calls_e e
  | LFld l _ => calls_l l
  | LSub l e => calls_l l && calls_e e
  | LIdx f l e => p f && calls_l l && calls_e e
  end.
Fixpoint calls_s (s : stmt F) : bool :=
  match s with
  | Skip | Fall | Made | Decl _ None => true
  | Seq s1 s2 => calls_s s1 && calls_s s2
  | Decl _ (Some e) | Return e | Assert e => calls_e e
  | Assign l e => calls_l l && calls_e e
  | Mut f l es => p f && calls_l l && calls_es es
  | If c s1 s2 => calls_e c && calls_s s1 && calls_s s2
  | Block s | For _ _ _ s => calls_s s
  | ReturnRef l => calls_l l
  end.
End Calls.

Section Cong.
Variable S : Scalar.
Variable F : Type.
Variable b : build.
Variable sig : F -> list ty.
Variables c1 c2 : F -> list (val S) -> outcome (result S).
Variable p : F -> bool.
Hypothesis agree : forall f vs, p f = true -> forall2b has_ty (sig f) vs = true -> c1 f vs = c2 f vs.

Lemma do_call_cong : forall f vs, p f = true -> do_call S F sig c1 f vs = do_call S F sig c2 f vs.
Proof. intros f vs Hp. unfold do_call. destruct (forall2b has_ty (sig f) vs) eqn:E; [apply agree; assumption|reflexivity]. Qed.
Lemma bind_cong : forall A B (m : outcome A) (k1 k2 : A -> outcome B), (forall a, k1 a = k2 a) -> bind m k1 = bind m k2.
Proof. intros A B [] k1 k2 H; cbn; auto. Qed.

Notation ev1 := (eval S F sig c1). Notation ev2 := (eval S F sig c2).
Notation evs1 := (evals S F sig c1). Notation evs2 := (evals S F sig c2).
Notation lo1 := (locate S F sig c1). Notation lo2 := (locate S F sig c2).

Ltac split_calls := repeat match goal with H : (_ && _)%bool = true |- _ => apply andb_true_iff in H; destruct H end.
Ltac step :=
  first
  [ reflexivity
  | match goal with H : forall _, _ = _ |- _ => apply H end
  | match goal with H : forall _ _, _ = _ |- _ => apply H end
  | apply bind_cong; intro
  | match goal with |- match ?v with _ => _ end = _ => destruct v end
  | match goal with |- bind (do_call _ _ _ _ ?f _) _ = _ => rewrite (do_call_cong f) by assumption end
  ].

Lemma eval_cong :
  (forall e, calls_e F p e = true -> forall en k1 k2, (forall v, k1 v = k2 v) -> ev1 en e k1 = ev2 en e k2) /\
  (forall es, calls_es F p es = true -> forall en k1 k2, (forall v, k1 v = k2 v) -> evs1 en es k1 = evs2 en es k2) /\
  (forall l, calls_l F p l = true -> forall en k1 k2, (forall a q, k1 a q = k2 a q) -> lo1 en l k1 = lo2 en l k2).
Proof.
  apply expr_all; intros; cbn [calls_e calls_es calls_l eval evals locate] in *;
    fold (calls_e F p) (calls_es F p) (calls_l F p) in *;
    fold (eval S F sig c1) (evals S F sig c1) (locate S F sig c1) (eval S F sig c2) (evals S F sig c2) (locate S F sig c2) in *; split_calls.
  all: repeat first
    [ reflexivity
    | match goal with
      | IH : _ -> forall en k1 k2, _ -> ev1 en ?e k1 = _ |- ev1 _ ?e _ = ev2 _ ?e _ => apply IH; [assumption|intro]
      | IH : _ -> forall en k1 k2, _ -> evs1 en ?e k1 = _ |- evs1 _ ?e _ = evs2 _ ?e _ => apply IH; [assumption|intro]
      | IH : _ -> forall en k1 k2, _ -> lo1 en ?e k1 = _ |- lo1 _ ?e _ = lo2 _ ?e _ => apply IH; [assumption|intros ? ?]
      end
    | match goal with H : forall _, ?k1 _ = ?k2 _ |- ?k1 _ = ?k2 _ => apply H end
    | match goal with H : forall _ _, ?k1 _ _ = ?k2 _ _ |- ?k1 _ _ = ?k2 _ _ => apply H end
    | match goal with |- bind (do_call _ _ _ _ ?f _) _ = _ => rewrite (do_call_cong f) by assumption end
    | apply bind_cong; intro
    | match goal with |- match ?v with _ => _ end = _ => destruct v end ].
Qed.

Notation ex1 := (exec S F b sig c1). Notation ex2 := (exec S F b sig c2).
Lemma exec_cong : forall s, calls_s F p s = true ->
  forall en k1 k2, (forall en' r, k1 en' r = k2 en' r) -> ex1 s en k1 = ex2 s en k2.
Proof.
  destruct eval_cong as (He & Hes & Hl).
  induction s; cbn [calls_s]; intros H en k1 k2 Hk; split_calls.
  8: { (* For *)
    cbn [exec]. generalize dependent en. generalize lo. induction n as [|n IHn]; intros i en; [apply Hk|].
    apply IHs; [assumption|]. intros en' r. cbv zeta. destruct r; [apply Hk|apply IHn]. }
  all: try (destruct e as [e|]); cbn [exec].
  all: repeat first
    [ reflexivity
    | match goal with
      | |- ev1 _ ?e _ = ev2 _ ?e _ => apply He; [assumption|intro]
      | |- evs1 _ ?e _ = evs2 _ ?e _ => apply Hes; [assumption|intro]
      | |- lo1 _ ?e _ = lo2 _ ?e _ => apply Hl; [assumption|intros ? ?]
      | IH : _ -> forall en k1 k2, _ -> ex1 ?s en k1 = _ |- ex1 ?s _ _ = ex2 ?s _ _ => apply IH; [assumption|intros ? ?]
      end
    | match goal with H : forall _ _, ?k1 _ _ = ?k2 _ _ |- ?k1 _ _ = ?k2 _ _ => apply H end
    | match goal with |- bind (do_call _ _ _ _ ?f _) _ = _ => rewrite (do_call_cong f) by assumption end
    | apply bind_cong; intro
    | match goal with |- match ?v with _ => _ end = _ => destruct v end ].
Qed.
Lemma run_fun_cong : forall d vs, calls_s F p (f_body d) = true -> run_fun S F b sig c1 d vs = run_fun S F b sig c2 d vs.
Proof. intros d vs H. apply exec_cong; [exact H|reflexivity]. Qed.
End Cong.

(** ** The first [n] statements of a sequence, and the rest *)
Section Split.
Variable F : Type.
Fixpoint first_stmts (n : nat) (s : stmt F) : stmt F :=
  match n, s with
  | Datatypes.S n, Seq s1 s2 => Seq s1 (first_stmts n s2)
  | _, _ => Skip
  end.
Fixpoint rest_stmts (n : nat) (s : stmt F) : stmt F :=
  match n, s with
  | Datatypes.S n, Seq s1 s2 => rest_stmts n s2
  | _, _ => s
  end.
End Split.
Lemma all_calls : forall F,
  (forall e, calls_e F (fun _ => true) e = true) /\ (forall es, calls_es F (fun _ => true) es = true) /\ (forall l, calls_l F (fun _ => true) l = true).
Proof.
  intro F. apply expr_all; intros; cbn [calls_e calls_es calls_l]; fold (calls_e F (fun _ => true)) (calls_es F (fun _ => true)) (calls_l F (fun _ => true)); repeat match goal with H : _ = true |- _ => rewrite H; clear H end; reflexivity.
Qed.
Lemma all_calls_s : forall F s, calls_s F (fun _ => true) s = true.
Proof.
  intro F. destruct (all_calls F) as (He & Hes & Hl).
  induction s; cbn [calls_s]; try destruct e as [e|]; rewrite ?He, ?Hes, ?Hl, ?IHs1, ?IHs2, ?IHs; reflexivity.
Qed.
Lemma exec_ext : forall S F b sig c s en k1 k2, (forall en' r, k1 en' r = k2 en' r) ->
  exec S F b sig c s en k1 = exec S F b sig c s en k2.
Proof.
  intros S F b sig c s en k1 k2 H. apply (exec_cong S F b sig c c (fun _ => true)); [reflexivity|apply all_calls_s|exact H].
Qed.
Lemma exec_split : forall n S F b sig c s en k,
  exec S F b sig c s en k =
  exec S F b sig c (first_stmts F n s) en (fun en' r => match r with None => exec S F b sig c (rest_stmts F n s) en' k | Some _ => k en' r end).
Proof.
  induction n as [|n IHn]; intros S F b sig c s en k; [reflexivity|].
  destruct s; try reflexivity. cbn [first_stmts rest_stmts]. cbn [exec].
  apply exec_ext. intros en' r. destruct r; [reflexivity|]. apply IHn.
Qed.
