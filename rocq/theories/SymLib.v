(** * Sign symmetry of binary32 operations and of every expression built from + - * *)
From Coq Require Import ZArith Bool Reals List Lra Lia.
From Flocq Require Import Core IEEE754.BinarySingleNaN.
From Verif Require Import Scalar IEEE32 FloatBasics SpecF32 FloatOps FloatAlg ErrExpr ErrLib SpecSym.
Import ListNotations.
Local Open Scope R_scope.

Lemma alike_refl x : alike x x. Proof. now left. Qed.
Lemma alike_sym x y : alike x y -> alike y x. Proof. intros [->|[A B]]; [now left|right; now split]. Qed.
Lemma alike_trans x y z : alike x y -> alike y z -> alike x z.
Proof. intros [->|[A B]]; [trivial|]. intros [<-|[C D]]; right; now split. Qed.
Lemma iszero_opp (x : f32) : iszero (Bopp x) = iszero x. Proof. now destruct x. Qed.
Lemma alike_opp x y : alike x y -> alike (Bopp x) (Bopp y).
Proof. intros [->|[A B]]; [now left|right]. now rewrite !iszero_opp. Qed.
Lemma alike_opposite x y : alike (Bopp x) y <-> opposite x y.
Proof.
  split.
  - intros [<-|[A B]]; [apply opposite_opp|]. rewrite iszero_opp in A. destruct (iszero_xr x A) as [E N], (iszero_xr y B) as [E' N'].
    split; [congruence|]. intros _. rewrite E, E'. ring.
  - intros [N E]. destruct (is_nan x) eqn:Nx.
    + left. destruct x; try discriminate. destruct y; try discriminate. reflexivity.
    + apply xr_eq_cases; [now rewrite is_nan_Bopp|congruence|]. rewrite xr_opp, E by reflexivity. reflexivity.
Qed.
Lemma opposite_twice x y z : opposite x y -> opposite y z -> alike x z.
Proof. intros A B. apply alike_opposite in A, B. apply alike_opp in A. rewrite opp_involutive in A. now apply alike_trans with (Bopp y). Qed.
Lemma alike_then_opposite x y z : alike x y -> opposite y z -> opposite x z.
Proof. intros A B. apply alike_opposite. apply alike_opposite in B. apply alike_trans with (Bopp y); [now apply alike_opp|exact B]. Qed.

(** ** Congruence *)
Lemma alike_add x x' y y' : alike x x' -> alike y y' -> alike (badd x y) (badd x' y').
Proof.
  intros A B. apply (opposite_twice _ (badd (Bopp x) (Bopp y))).
  - apply opposite_add; apply opposite_opp.
  - apply opposite_add; apply alike_opposite; rewrite opp_involutive; trivial.
Qed.
Lemma mul_zero_alike z z' y : iszero z = true -> iszero z' = true -> alike (bmul z y) (bmul z' y).
Proof. destruct z, z'; try discriminate. intros _ _. destruct y; cbn; try now left. - right; now split. - right; now split. Qed.
Lemma alike_mul x x' y y' : alike x x' -> alike y y' -> alike (bmul x y) (bmul x' y').
Proof.
  intros A B. apply alike_trans with (bmul x' y).
  - destruct A as [->|[A1 A2]]; [apply alike_refl|now apply mul_zero_alike].
  - rewrite (bmul_comm x' y), (bmul_comm x' y'). destruct B as [->|[B1 B2]]; [apply alike_refl|now apply mul_zero_alike].
Qed.
Lemma neg_if_add s x y : alike (neg_if s (badd x y)) (badd (neg_if s x) (neg_if s y)).
Proof. destruct s; [|apply alike_refl]. cbn. apply alike_opposite. apply opposite_add; apply opposite_opp. Qed.
Lemma neg_if_mul s t x y : neg_if (xorb s t) (bmul x y) = bmul (neg_if s x) (neg_if t y).
Proof. destruct s, t; cbn; rewrite ?bmul_opp_l, ?bmul_opp_r, ?opp_involutive; reflexivity. Qed.
Lemma neg_if_opp s x : neg_if s (Bopp x) = Bopp (neg_if s x). Proof. now destruct s. Qed.

(** ** Every expression *)
Lemma parity_ok L (rho rho' : nat -> f32) p e : (forall n, alike (rho' n) (neg_if (p n) (rho n))) ->
  forall s, parity p e = Some s -> alike (eval (F32 L) rho' e) (neg_if s (eval (F32 L) rho e)).
Proof.
  intros H. induction e as [n|m|m| |a IHa b IHb|a IHa b IHb|a IHa b IHb|a IHa]; intros s E; cbn [parity] in E.
  - injection E as <-. apply H.
  - injection E as <-. apply alike_refl.
  - injection E as <-. apply alike_refl.
  - injection E as <-. apply alike_refl.
  - destruct (parity p a) as [sa|]; [|discriminate]. destruct (parity p b) as [sb|]; [|discriminate]. destruct (eqb_spec sa sb) as [<-|]; [|discriminate]. injection E as <-.
    eapply alike_trans; [exact (alike_add _ _ _ _ (IHa _ eq_refl) (IHb _ eq_refl))|]. apply alike_sym. apply neg_if_add.
  - destruct (parity p a) as [sa|]; [|discriminate]. destruct (parity p b) as [sb|]; [|discriminate]. destruct (eqb_spec sa sb) as [<-|]; [|discriminate]. injection E as <-.
    cbn [eval]. change (alike (bsub (eval (F32 L) rho' a) (eval (F32 L) rho' b)) (neg_if sa (bsub (eval (F32 L) rho a) (eval (F32 L) rho b)))).
    rewrite !minus_plus. eapply alike_trans; [exact (alike_add _ _ _ _ (IHa _ eq_refl) (alike_opp _ _ (IHb _ eq_refl)))|].
    apply alike_sym. rewrite <- neg_if_opp. apply neg_if_add.
  - destruct (parity p a) as [sa|]; [|discriminate]. destruct (parity p b) as [sb|]; [|discriminate]. injection E as <-.
    eapply alike_trans; [exact (alike_mul _ _ _ _ (IHa _ eq_refl) (IHb _ eq_refl))|]. left. symmetry. apply neg_if_mul.
  - cbn [eval]. change (alike (Bopp (eval (F32 L) rho' a)) (neg_if s (Bopp (eval (F32 L) rho a)))). rewrite neg_if_opp. apply alike_opp. now apply IHa.
Qed.

Fixpoint negs (ps : list bool) (l : list f32) : list f32 :=
  match ps, l with p :: ps', x :: l' => neg_if p x :: negs ps' l' | _, _ => l end.
Lemma negs_env ps l n : alike (env (B754_zero false : f32) (negs ps l) n) (neg_if (env false ps n) (env (B754_zero false : f32) l n)).
Proof.
  revert l n. induction ps as [|p ps IH]; intros l n; cbn [negs].
  - unfold env at 2. destruct n; apply alike_refl.
  - destruct l as [|x l].
    + right. unfold env. destruct n; cbn; [now destruct p|]. split; [reflexivity|]. now destruct (nth n ps false).
    + destruct n as [|n]; [apply alike_refl|]. exact (IH l n).
Qed.
Definition has_parity (ps : list bool) (s : bool) (e : expr) : bool :=
  match parity (env false ps) e with Some t => Bool.eqb s t | None => false end.
Lemma exprs_parity L ps l es s : forallb (has_parity ps s) es = true ->
  Forall2 alike (map (eval (F32 L) (env (B754_zero false) (negs ps l))) es) (map (neg_if s) (map (eval (F32 L) (env (B754_zero false) l)) es)).
Proof.
  induction es as [|e es IH]; intros H; cbn [map]; [constructor|]. cbn [forallb] in H. apply andb_prop in H as [H1 H2]. constructor; [|now apply IH].
  unfold has_parity in H1. destruct (parity _ e) as [t|] eqn:E; [|discriminate]. apply eqb_prop in H1. subst t.
  apply (parity_ok L _ _ (env false ps)); [|exact E]. intros n. apply negs_env.
Qed.

(** ** Squares and quotients, bit for bit *)
Lemma square_opposite x y : opposite x y -> bmul y y = bmul x x.
Proof.
  intros H. apply alike_opposite in H. destruct H as [<-|[A B]]; [now rewrite bmul_opp_l, bmul_opp_r, opp_involutive|].
  rewrite iszero_opp in A. destruct x as [s| | |], y as [t| | |]; try discriminate. now destruct s, t.
Qed.
Lemma bdiv_opp_l (x y : f32) : bdiv (Bopp x) y = Bopp (bdiv x y).
Proof.
  destruct (fin_cases x) as [[F|[s ->]]|F].
  2:{ destruct y as [s'|s'| |s' m' e' H']; cbn; try reflexivity; destruct s, s'; reflexivity. }
  2:{ destruct x; try discriminate F. now destruct y. }
  destruct (fin_cases y) as [[G|[s ->]]|G].
  2:{ destruct x as [s'|s'| |s' m' e' H']; cbn; try reflexivity; destruct s, s'; reflexivity. }
  2:{ destruct y; try discriminate G. now destruct x. }
  destruct (iszero y) eqn:Z.
  { destruct y as [s'| | |]; try discriminate. destruct x as [s|s| |s m e H]; try discriminate F; cbn; destruct s, s'; reflexivity. }
  assert (NZ : B2R y <> 0). { destruct y; try discriminate. cbn. intros E. apply eq_0_F2R in E. destruct s; discriminate. }
  pose proof (Bdiv_correct 24 128 _ _ mode_NE x y NZ) as A.
  pose proof (Bdiv_correct 24 128 _ _ mode_NE (Bopp x) y NZ) as B.
  rewrite B2R_Bopp in B. replace (- b2r x / b2r y) with (- (b2r x / b2r y)) in B by (unfold Rdiv; ring).
  rewrite round_NE_opp, Rabs_Ropp in B. rewrite Bsign_opp, is_finite_Bopp in B by now apply finite_nn.
  destruct (Rlt_bool _ _).
  - destruct A as (A1 & A2 & A3). destruct B as (B1 & B2 & B3). rewrite F in A2, B2.
    assert (N : is_nan (bdiv x y) = false) by (now apply finite_nn).
    assert (N' : is_nan (bdiv (Bopp x) y) = false) by (now apply finite_nn).
    apply B2R_Bsign_inj.
    + exact B2.
    + now rewrite is_finite_Bopp.
    + rewrite B2R_Bopp, B1, A1. reflexivity.
    + rewrite Bsign_opp by exact N. rewrite B3, A3 by assumption. now destruct (Bsign x), (Bsign y).
  - apply sf_inf in A. apply sf_inf in B. rewrite A, B. cbn. now destruct (Bsign x), (Bsign y).
Qed.
