(** * Proofs: accepted programs keep their variables typed and never fail *)
From Coq Require Import ZArith NArith Bool List String Lia PeanoNat.
From Verif Require Import Scalar Outcome Types Int32 Cpp CppNames CppProgram SpecCpp SpecClient CppCong.
Import ListNotations.
Local Open Scope string_scope.
Local Open Scope outcome_scope.

Lemma cls_eqb_eq : forall c d, cls_eqb c d = true -> c = d.
Proof. intros [] [] H; try discriminate H; reflexivity. Qed.
Lemma cls_eqb_refl : forall c, cls_eqb c c = true.
Proof. intros []; reflexivity. Qed.
Lemma ty_eqb_eq : forall a b, ty_eqb a b = true -> a = b.
Proof.
  induction a; intros [] H; try discriminate H; try reflexivity; cbn in H.
  - f_equal. apply IHa. exact H.
  - f_equal. apply cls_eqb_eq. exact H.
Qed.
Lemma tys_eqb_eq : forall l m, tys_eqb l m = true -> l = m.
Proof.
  induction l as [|a l IH]; intros [|b m] H; try discriminate H; [reflexivity|]. cbn in H. apply andb_true_iff in H.
  destruct H as [H1 H2]. f_equal; [apply ty_eqb_eq; exact H1|apply IH; exact H2].
Qed.

Section Values.
Variable S : Scalar.
Lemma forall2b_mono : forall {A B} (p q : A -> B -> bool) l m, (forall a b, p a b = true -> q a b = true) ->
  forall2b p l m = true -> forall2b q l m = true.
Proof.
  intros A B p q l. induction l as [|a l IH]; intros [|b m] H E; try discriminate E; [reflexivity|]. cbn in *.
  apply andb_true_iff in E. destruct E as [E1 E2]. rewrite (H _ _ E1). exact (IH m H E2).
Qed.
Lemma scalar_vec : forall t (v : val S), ty_scalar t v = true -> ty_vec t v = true.
Proof. intros [] [] H; try discriminate H; reflexivity. Qed.
Lemma vec_has : forall t (v : val S), ty_vec t v = true -> has_ty t v = true.
Proof.
  intros [] [] H; try discriminate H; try reflexivity. cbn in *. apply andb_true_iff in H. destruct H as [H1 H2].
  rewrite H1. exact (forall2b_mono _ _ _ _ scalar_vec H2).
Qed.
(** the fields of a class are scalars or objects with scalar fields *)
Lemma has_field : forall c i t (v : val S), nth_error (fields c) i = Some t -> has_ty t v = true -> ty_vec t v = true.
Proof.
  intros c i t v E H.
  assert (D : match t with Tcls d => In d [Cvec2; Cvec3; Cvec4] | Tptr _ => False | _ => True end).
  { destruct c; cbn in E; do 5 (try destruct i as [|i]; cbn in E; try (injection E as <-; cbn; tauto)); discriminate E. }
  destruct t; try contradiction; try exact H. destruct v; try discriminate H. cbn in *.
  apply andb_true_iff in H. destruct H as [H1 H2]. rewrite H1. cbn [andb].
  assert (HL : forall l m, Forall (fun t => match t with Tcls _ | Tptr _ => False | _ => True end) l ->
    forall2b (ty_vec (S := S)) l m = true -> forall2b (ty_scalar (S := S)) l m = true).
  { induction l as [|t l IH]; intros [|w m] HF E2; try discriminate E2; [reflexivity|]. cbn in *. inversion HF as [|t' l' HF1 HF2]; subst.
    apply andb_true_iff in E2. destruct E2 as [E2 E3]. rewrite (IH m HF2 E3), andb_true_r. destruct t; try contradiction; exact E2. }
  apply HL; [|exact H2]. repeat (destruct D as [<-|D]; [cbn; repeat constructor|]). contradiction.
Qed.
Lemma has_defined : forall t (v : val S), has_ty t v = true -> defined v = true.
Proof.
  assert (H1 : forall t (v : val S), ty_scalar t v = true -> defined v = true) by (intros [] [] H; try discriminate H; reflexivity).
  assert (HL : forall p : ty -> val S -> bool, (forall t (v : val S), p t v = true -> defined v = true) -> forall l m, forall2b p l m = true -> forallb defined m = true).
  { intros p Hp. induction l as [|a l IH]; intros [|b m] E; try discriminate E; [reflexivity|]. cbn in *. apply andb_true_iff in E.
    destruct E as [E1 E2]. rewrite (Hp _ _ E1). exact (IH m E2). }
  assert (H2 : forall t (v : val S), ty_vec t v = true -> defined v = true).
  { intros [] v H; try exact (H1 _ _ H). destruct v; try discriminate H. cbn in *. apply andb_true_iff in H. exact (HL _ H1 _ _ (proj2 H)). }
  intros [] v H; try exact (H1 _ _ H).
  - destruct v as [| | | |[l|]| | | | |]; try discriminate H; reflexivity.
  - destruct v; try discriminate H. cbn in *. apply andb_true_iff in H. exact (HL _ H2 _ _ (proj2 H)).
Qed.
Lemma forall2b_nth : forall {A B} (p : A -> B -> bool) l m i a, forall2b p l m = true -> nth_error l i = Some a ->
  exists b, nth_error m i = Some b /\ p a b = true.
Proof.
  intros A B p l. induction l as [|x l IH]; intros [|y m] i a H E; try discriminate H; [destruct i; discriminate E|].
  cbn in H. apply andb_true_iff in H. destruct H as [H1 H2]. destruct i as [|i]; cbn in *.
  - injection E as <-. exists y. tauto.
  - exact (IH m i a H2 E).
Qed.
Lemma forall2b_upd : forall {A B} (p : A -> B -> bool) l m i a b, forall2b p l m = true -> nth_error l i = Some a -> p a b = true ->
  forall2b p l (upd m i b) = true.
Proof.
  intros A B p l. induction l as [|x l IH]; intros [|y m] i a b H E Hb; try discriminate H; [destruct i; discriminate E|].
  cbn in H. apply andb_true_iff in H. destruct H as [H1 H2]. destruct i as [|i]; cbn in *.
  - injection E as <-. rewrite Hb. exact H2.
  - rewrite H1. exact (IH m i a b H2 E Hb).
Qed.

(** ** Paths *)
Fixpoint ty_path (t : ty) (p : list nat) : option ty :=
  match p with
  | [] => Some t
  | i :: p => match t with Tcls c => match nth_error (fields c) i with Some u => ty_path u p | None => None end | _ => None end
  end.
Lemma ty_path_snoc : forall p t i, ty_path t (p ++ [i]) =
  match ty_path t p with Some (Tcls c) => nth_error (fields c) i | _ => None end.
Proof.
  induction p as [|j p IH]; intros t i; cbn.
  - destruct t; try reflexivity. destruct (nth_error (fields c) i); reflexivity.
  - destruct t; try reflexivity. destruct (nth_error (fields c) j); [apply IH|reflexivity].
Qed.
Lemma get_typed : forall p t u (v : val S), has_ty t v = true -> ty_path t p = Some u -> exists w, get v p = Some w /\ has_ty u w = true.
Proof.
  induction p as [|i p IH]; intros t u v H E; cbn in *.
  - injection E as <-. exists v. tauto.
  - destruct t; try discriminate E. destruct (nth_error (fields c) i) as [t|] eqn:F; [|discriminate E].
    destruct v; try discriminate H. cbn in H. apply andb_true_iff in H. destruct H as [H1 H2]. apply cls_eqb_eq in H1. subst c0.
    destruct (forall2b_nth _ _ _ _ _ H2 F) as (w & W1 & W2). rewrite W1. apply vec_has in W2. exact (IH t u w W2 E).
Qed.
Lemma put_typed : forall p t u (v w : val S), has_ty t v = true -> ty_path t p = Some u -> has_ty u w = true ->
  exists v', put v p w = Some v' /\ has_ty t v' = true.
Proof.
  induction p as [|i p IH]; intros t u v w H E Hw; cbn in *.
  - injection E as <-. exists w. tauto.
  - destruct t; try discriminate E. destruct (nth_error (fields c) i) as [t|] eqn:F; [|discriminate E].
    destruct v; try discriminate H. cbn in H. apply andb_true_iff in H. destruct H as [H1 H2]. apply cls_eqb_eq in H1. subst c0.
    destruct (forall2b_nth _ _ _ _ _ H2 F) as (x & W1 & W2). rewrite W1. apply vec_has in W2.
    destruct (IH t u x w W2 E Hw) as (x' & P1 & P2). rewrite P1. eexists; split; [reflexivity|]. cbn. rewrite cls_eqb_refl. cbn.
    apply (forall2b_upd _ _ _ _ _ _ H2 F). exact (has_field _ _ _ _ F P2).
Qed.

(** ** Environments *)
Definition bound_ok (d : string * ty) (x : string * binding S) : Prop :=
  fst d = fst x /\ exists v, snd x = BVal S v /\ has_ty (snd d) v = true.
Definition env_ok (g : ctx) (en : env S) : Prop := Forall2 bound_ok g en.
Lemma env_length : forall g en, env_ok g en -> List.length en = List.length g.
Proof. intros g en H. induction H; cbn; congruence. Qed.
Lemma env_lookup : forall g en x t, env_ok g en -> type_in x g = Some t -> exists v, lookup S x en = Some (BVal S v) /\ has_ty t v = true.
Proof.
  intros g en x t H. induction H as [|[y u] [z bd] g en [H1 (v & H2 & H3)] H IH]; cbn; [discriminate|].
  cbn in *. subst. destruct (String.eqb x z); [|exact IH]. intro E. injection E as <-. exists v. tauto.
Qed.
Lemma env_change : forall g en x t v, env_ok g en -> type_in x g = Some t -> has_ty t v = true -> env_ok g (change S x v en).
Proof.
  intros g en x t v H. induction H as [|[y u] [z bd] g en H0 H IH]; cbn; [discriminate|].
  destruct H0 as [H1 (w & H2 & H3)]. cbn in *. subst. destruct (String.eqb x z) eqn:Z.
  - intros E Hv. injection E as <-. constructor; [|exact H]. split; [reflexivity|]. exists v. tauto.
  - intros E Hv. constructor; [|exact (IH E Hv)]. split; [reflexivity|]. exists w. tauto.
Qed.
Lemma env_skip : forall (h g : ctx) en (en0 : env S), env_ok (h ++ g)%list en -> List.length en0 = List.length g ->
  env_ok g (skipn (List.length en - List.length en0) en).
Proof.
  intros h g en en0 H L. rewrite (env_length _ _ H), L, app_length, Nat.add_sub.
  revert en H. induction h as [|d h IH]; intros en H; [exact H|]. cbn. inversion H; subst. apply IH. assumption.
Qed.
End Values.

Section Programs.
Variable S : Scalar.
Variable b : build.
Variable call : fn -> list (val S) -> outcome (result S).
Hypothesis call_ok : forall f vs, safe f = true -> forall2b has_ty (f_sig (code f)) vs = true ->
  exists r, call f vs = Ret r /\ result_ok f vs r = true.
Hypothesis index_ok : forall f c n v t, index_of f = Some c -> nth_error (fields c) (index n) = Some t -> has_ty (Tcls c) v = true ->
  call f [v; VU n] = Ret (Ref [index n], []).
Hypothesis const_index_ok : forall f c n v t, const_index_of f = Some c -> nth_error (fields c) (index n) = Some t -> has_ty (Tcls c) v = true ->
  exists w, call f [v; VU n] = Ret (w, []) /\ has_ty t w = true.
Notation sig := (fun g => f_sig (code g)).
Variable P : outcome (result S) -> Prop.

Definition place_ok (g : ctx) (en : env S) (nm : bool) (a : place S) (p : list nat) (t : ty) : Prop :=
  match a with
  | PVar _ x => exists t0, type_in x g = Some t0 /\ ty_path t0 p = Some t
  | PTmp _ v => nm = false /\ exists t0, has_ty t0 v = true /\ ty_path t0 p = Some t
  end.
Lemma fetch_ok : forall g en nm a p t, env_ok S g en -> place_ok g en nm a p t -> exists v, fetch S en a p = Ret v /\ has_ty t v = true.
Proof.
  intros g en nm [x|v] p t He H; cbn in H; unfold fetch.
  - destruct H as (t0 & H1 & H2). destruct (env_lookup S g en x t0 He H1) as (v & -> & Hv).
    destruct (get_typed S p t0 t v Hv H2) as (w & -> & Hw). exists w. tauto.
  - destruct H as (_ & t0 & H1 & H2). destruct (get_typed S p t0 t v H1 H2) as (w & -> & Hw). exists w. tauto.
Qed.
Lemma store_ok : forall g en a p t w, env_ok S g en -> place_ok g en true a p t -> has_ty t w = true ->
  exists en', store S en a p w = Ret en' /\ env_ok S g en'.
Proof.
  intros g en [x|v] p t w He H Hw; cbn in H; unfold store; [|destruct H; discriminate].
  destruct H as (t0 & H1 & H2). destruct (env_lookup S g en x t0 He H1) as (v & -> & Hv).
  destruct (put_typed S p t0 t v w Hv H2 Hw) as (v' & -> & Hv'). eexists; split; [reflexivity|].
  exact (env_change S g en x t0 v' He H1 Hv').
Qed.

Notation ev := (eval S fn sig call). Notation evs := (evals S fn sig call). Notation lo := (locate S fn sig call).
Lemma float_has : forall v : val S, has_ty Tfloat v = true -> exists x, v = VF x.
Proof. intros [] H; try discriminate H. eexists; reflexivity. Qed.
Lemma int_has : forall v : val S, has_ty Tint v = true -> exists x, v = VI x.
Proof. intros [] H; try discriminate H. eexists; reflexivity. Qed.
Lemma bool_has : forall v : val S, has_ty Tbool v = true -> exists x, v = VB x.
Proof. intros [] H; try discriminate H. eexists; reflexivity. Qed.

Lemma bin_ok : forall op t u r v w, bin_type op t u = Some r -> has_ty t v = true -> has_ty u w = true ->
  exists x, bin_op (S := S) op v w = Ret x /\ has_ty r x = true.
Proof.
  intros op t u r v w E Hv Hw. destruct t, u; try discriminate E.
  - destruct (float_has v Hv) as [x ->], (float_has w Hw) as [y ->]. destruct op; try discriminate E; injection E as <-; eexists; split; reflexivity.
  - destruct (int_has v Hv) as [x ->], (int_has w Hw) as [y ->]. destruct op; try discriminate E; injection E as <-; eexists; split; reflexivity.
Qed.
Lemma un_ok : forall op t r v, un_type op t = Some r -> has_ty t v = true -> exists x, un_op (S := S) op v = Ret x /\ has_ty r x = true.
Proof.
  intros op t r v E Hv. destruct t; try (destruct op; discriminate E).
  - destruct (float_has v Hv) as [x ->]. destruct op; try discriminate E; injection E as <-; eexists; split; reflexivity.
  - destruct (int_has v Hv) as [x ->]. destruct op; try discriminate E; injection E as <-; eexists; split; reflexivity.
  - destruct (bool_has v Hv) as [x ->]. destruct op; try discriminate E; injection E as <-; eexists; split; reflexivity.
Qed.
Lemma conv_ok : forall t u r v, conv_type t u = Some r -> has_ty u v = true -> exists x, conv (S := S) t v = Ret x /\ has_ty r x = true.
Proof.
  intros t u r v E Hv. destruct u; try (destruct t; discriminate E).
  - destruct (int_has v Hv) as [x ->]. destruct t; try discriminate E; injection E as <-; eexists; split; reflexivity.
  - destruct (bool_has v Hv) as [x ->]. destruct t; try discriminate E; injection E as <-; eexists; split; reflexivity.
Qed.
Lemma prim_ok : forall p ts r vs, prim_type p ts = Some r -> forall2b has_ty ts vs = true -> exists x, prim_op (S := S) p vs = Ret x /\ has_ty r x = true.
Proof.
  intros p ts r vs E H.
  assert (H1 : forall v, forall2b has_ty [Tfloat] v = true -> exists x, v = [@VF S x]).
  { intros [|v [|w l]] Hl; cbn in Hl; try discriminate Hl; [|rewrite andb_false_r in Hl; discriminate Hl].
    rewrite andb_true_r in Hl. destruct (float_has v Hl) as [x ->]. exists x. reflexivity. }
  assert (H2 : forall ts v, forall2b has_ty (Tfloat :: ts) v = true -> exists x l, v = @VF S x :: l /\ forall2b has_ty ts l = true).
  { intros us [|v l] Hl; cbn in Hl; try discriminate Hl. apply andb_true_iff in Hl. destruct Hl as [Ha Hb].
    destruct (float_has v Ha) as [x ->]. exists x, l. tauto. }
  destruct ts as [|t1 ts]; [destruct p; discriminate E|].
  destruct t1; try (destruct p; discriminate E).
  apply H2 in H. destruct H as (x & l & -> & H).
  destruct ts as [|t2 ts].
  - destruct l as [|]; [|discriminate H]. destruct p; try discriminate E; injection E as <-; eexists; split; reflexivity.
  - destruct t2; try (destruct p; discriminate E). apply H2 in H. destruct H as (y & l' & -> & H). destruct ts as [|t3 ts].
    + destruct l' as [|]; [|discriminate H]. destruct p; try discriminate E; injection E as <-; eexists; split; reflexivity.
    + destruct t3; try (destruct p; discriminate E). destruct ts as [|]; [|destruct p; discriminate E].
      apply H1 in H. destruct H as [z ->]. destruct p; try discriminate E; injection E as <-; eexists; split; reflexivity.
Qed.
Lemma do_call_ok : forall f ts vs, safe f = true -> ts = f_sig (code f) -> forall2b has_ty ts vs = true ->
  exists r, do_call S fn sig call f vs = Ret r /\ result_ok f vs r = true.
Proof. intros f ts vs Hs -> H. unfold do_call. rewrite H. apply call_ok; assumption. Qed.

Lemma index_sig : forall f c, index_of f = Some c -> f_sig (code f) = [Tcls c; Tuint].
Proof. intros f c E. destruct f; try discriminate E; injection E as <-; reflexivity. Qed.
Lemma const_index_sig : forall f c, const_index_of f = Some c -> f_sig (code f) = [Tcls c; Tuint].
Proof. intros f c E. destruct f; try discriminate E; injection E as <-; reflexivity. Qed.

Lemma eval_ok :
  (forall a g t, type_e g a = Some t -> forall en, env_ok S g en -> forall k, (forall v, has_ty t v = true -> P (k v)) -> P (ev en a k)) /\
  (forall es g ts, type_es g es = Some ts -> forall en, env_ok S g en -> forall k, (forall vs, forall2b has_ty ts vs = true -> P (k vs)) -> P (evs en es k)) /\
  (forall l g t, type_l g l = Some t -> forall en, env_ok S g en -> forall k, (forall x p, place_ok g en (named l) x p t -> P (k x p)) -> P (lo en l k)).
Proof.
  apply expr_all.
  - intros m x g t E en He k K. injection E as <-. apply K. reflexivity.
  - intros n g t E en He k K. injection E as <-. apply K. reflexivity.
  - intros n g t E en He k K. injection E as <-. apply K. reflexivity.
  - intros c g t E en He k K. injection E as <-. apply K. reflexivity.
  - intros l IH g t E en He k K. apply (IH g t E en He). intros x p Hx.
    destruct (fetch_ok _ _ _ _ _ _ He Hx) as (v & -> & Hv). cbn [bind]. rewrite (has_defined S t v Hv). exact (K v Hv).
  - intros op a IH g t E en He k K. cbn in E. destruct (type_e g a) as [u|] eqn:F; [|discriminate E].
    apply (IH g u F en He). intros v Hv. destruct (un_ok _ _ _ _ E Hv) as (x & -> & Hx). exact (K x Hx).
  - intros op a1 IH1 a2 IH2 g t E en He k K. cbn in E. destruct (type_e g a1) as [u1|] eqn:F1; [|discriminate E].
    destruct (type_e g a2) as [u2|] eqn:F2; [|discriminate E].
    apply (IH1 g u1 F1 en He). intros v Hv. apply (IH2 g u2 F2 en He). intros w Hw.
    destruct (bin_ok _ _ _ _ _ _ E Hv Hw) as (x & -> & Hx). exact (K x Hx).
  - intros a1 IH1 a2 IH2 g t E en He k K. cbn in E. destruct (type_e g a1) as [[]|] eqn:F1; try discriminate E.
    destruct (type_e g a2) as [[]|] eqn:F2; try discriminate E. injection E as <-.
    apply (IH1 g Tbool F1 en He). intros v Hv. destruct (bool_has v Hv) as [c ->]. destruct c; [|apply K; reflexivity].
    exact (IH2 g Tbool F2 en He k K).
  - intros a1 IH1 a2 IH2 g t E en He k K. cbn in E. destruct (type_e g a1) as [[]|] eqn:F1; try discriminate E.
    destruct (type_e g a2) as [[]|] eqn:F2; try discriminate E. injection E as <-.
    apply (IH1 g Tbool F1 en He). intros v Hv. destruct (bool_has v Hv) as [c ->]. destruct c; [apply K; reflexivity|].
    exact (IH2 g Tbool F2 en He k K).
  - intros a0 IH0 a1 IH1 a2 IH2 g t E en He k K. cbn in E. destruct (type_e g a0) as [[]|] eqn:F0; try discriminate E.
    destruct (type_e g a1) as [t1|] eqn:F1; try discriminate E. destruct (type_e g a2) as [t2|] eqn:F2; try discriminate E.
    destruct (ty_eqb t1 t2) eqn:Q; [|discriminate E]. injection E as <-. apply ty_eqb_eq in Q. subst t2.
    apply (IH0 g Tbool F0 en He). intros v Hv. destruct (bool_has v Hv) as [c ->]. destruct c.
    + exact (IH1 g t1 F1 en He k K).
    + exact (IH2 g t1 F2 en He k K).
  - intros f es IH g t E en He k K. cbn in E. destruct (type_es g es) as [ts|] eqn:F; [|discriminate E].
    destruct (const_index_of f) as [c|] eqn:FC.
    { destruct (literal_index es) as [n|] eqn:FL; [|discriminate E]. destruct (tys_eqb ts [Tcls c; Tuint]) eqn:Q; [|discriminate E].
      apply tys_eqb_eq in Q. subst ts. unfold literal_index in FL.
      destruct es as [|a [|[| |m| | | | | | | | | | | | | ] [|]]]; try discriminate FL. injection FL as ->.
      set (k' := fun vs : list (val S) => match vs with [v; _] => do r <- do_call S fn sig call f [v; VU n]; match r with (v, []) => k v | _ => Undefined end | _ => Undefined end).
      assert (HK : P (evs en (ECons a (ECons (UInt n) ENil)) k')); [|exact HK].
      apply (IH g _ F en He). intros [|v [|u [|]]] Hvs; try discriminate Hvs; try (cbn in Hvs; rewrite ?andb_false_r in Hvs; discriminate Hvs).
      cbn [forall2b] in Hvs. apply andb_true_iff in Hvs. destruct Hvs as [Hv _].
      destruct (const_index_ok f c n v t FC E Hv) as (w & W1 & W2). unfold k', do_call.
      rewrite (const_index_sig f c FC). cbn [forall2b]. rewrite Hv. cbn [has_ty ty_scalar andb]. rewrite W1. exact (K w W2). }
    destruct (f_ret (code f)) as [|u|] eqn:FR; try discriminate E. destruct (f_out (code f)) as [|] eqn:FO; [|discriminate E].
    destruct (tys_eqb ts (f_sig (code f)) && safe f) eqn:Q; [|discriminate E]. injection E as ->. apply andb_true_iff in Q. destruct Q as [Q1 Q2].
    apply tys_eqb_eq in Q1. apply (IH g ts F en He). intros vs Hvs.
    destruct (do_call_ok f ts vs Q2 Q1 Hvs) as ([v os] & -> & R). cbn [bind]. unfold result_ok, out_types in R.
    rewrite FR, FO in R. cbn [map fst snd returned_ok] in R. apply andb_true_iff in R. destruct R as [R1 R2].
    destruct os as [|]; [|discriminate R2]. exact (K v R1).
  - intros p es IH g t E en He k K. cbn in E. destruct (type_es g es) as [ts|] eqn:F; [|discriminate E].
    apply (IH g ts F en He). intros vs Hvs. destruct (prim_ok _ _ _ _ E Hvs) as (x & -> & Hx). exact (K x Hx).
  - intros t0 a IH g t E en He k K. cbn in E. destruct (type_e g a) as [u|] eqn:F; [|discriminate E].
    apply (IH g u F en He). intros v Hv. destruct (conv_ok _ _ _ _ E Hv) as (x & -> & Hx). exact (K x Hx).
  - intros c es IH g t E en He k K. cbn in E. destruct (type_es g es) as [ts|] eqn:F; [|discriminate E].
    destruct (tys_eqb ts (fields c)) eqn:Q; [|discriminate E]. injection E as <-. apply tys_eqb_eq in Q. subst ts.
    apply (IH g _ F en He). intros vs Hvs. destruct vs as [|v vs]; [destruct c; discriminate Hvs|].
    apply K. cbn [has_ty]. rewrite cls_eqb_refl. cbn [andb].
    assert (HF : forall l vs, (forall t, In t l -> exists i, nth_error (fields c) i = Some t) -> forall2b has_ty l vs = true -> forall2b (ty_vec (S := S)) l vs = true).
    { induction l as [|t l IHl]; intros [|w ws] HI HH; try discriminate HH; [reflexivity|]. cbn in *. apply andb_true_iff in HH. destruct HH as [H1 H2].
      destruct (HI t (or_introl eq_refl)) as [i Hi]. rewrite (has_field S c i t w Hi H1). apply IHl; [|exact H2]. intros u Hu. apply HI. right. exact Hu. }
    apply HF; [|exact Hvs]. intros u Hu. exact (In_nth_error _ _ Hu).
  - intros es IH g t E. discriminate E.
  - intros a IH i g t E. discriminate E.
  - intros g ts E en He k K. injection E as <-. apply K. reflexivity.
  - intros a IH es IHs g ts E en He k K. cbn in E. destruct (type_e g a) as [t|] eqn:F; [|discriminate E].
    destruct (type_es g es) as [us|] eqn:Fs; [|discriminate E]. injection E as <-.
    apply (IH g t F en He). intros v Hv. apply (IHs g us Fs en He). intros vs Hvs. apply K. cbn. rewrite Hv. exact Hvs.
  - intros x g t E en He k K. cbn in E. cbn [locate]. destruct (env_lookup S g en x t He E) as (v & -> & Hv).
    apply K. exists t. split; [exact E|reflexivity].
  - intros a IH g t E en He k K. apply (IH g t E en He). intros v Hv. apply K. split; [reflexivity|]. exists t. split; [exact Hv|reflexivity].
  - intros l IH i g t E en He k K. cbn in E. destruct (type_l g l) as [[]|] eqn:F; try discriminate E.
    apply (IH g _ F en He). intros x p Hx. apply K. cbn [named]. destruct x as [x|v]; cbn in *.
    + destruct Hx as (t0 & H1 & H2). exists t0. split; [exact H1|]. rewrite ty_path_snoc, H2. exact E.
    + destruct Hx as (Hn & t0 & H1 & H2). split; [exact Hn|]. exists t0. split; [exact H1|]. rewrite ty_path_snoc, H2. exact E.
  - intros l IHl a IHa g t E. discriminate E.
  - intros f l IHl a IHa g t E en He k K. cbn in E. destruct a as [| |n| | | | | | | | | | | | | ]; try discriminate E. clear IHa.
    destruct (type_l g l) as [u|] eqn:F; [|discriminate E]. destruct (index_of f) as [c|] eqn:FI; [|discriminate E].
    destruct (ty_eqb u (Tcls c)) eqn:Q; [|discriminate E]. apply ty_eqb_eq in Q. subst u. cbn [locate eval].
    apply (IHl g _ F en He). intros x p Hx. destruct (fetch_ok _ _ _ _ _ _ He Hx) as (v & -> & Hv). cbn [bind].
    unfold do_call. rewrite (index_sig f c FI). cbn [forall2b]. rewrite Hv. cbn [has_ty ty_scalar andb].
    rewrite (index_ok f c n v t FI E Hv). cbn [bind]. apply K. cbn [named]. destruct x as [x|w]; cbn in *.
    + destruct Hx as (t0 & H1 & H2). exists t0. split; [exact H1|]. rewrite ty_path_snoc, H2. exact E.
    + destruct Hx as (Hn & t0 & H1 & H2). split; [exact Hn|]. exists t0. split; [exact H1|]. rewrite ty_path_snoc, H2. exact E.
Qed.

(** declarations only add to the context *)
Lemma check_extends : forall r s g g', check r g s = Some g' -> exists h, g' = (h ++ g)%list.
Proof.
  intros r. induction s as [|s1 IHs1 s2 IHs2|x e0|l e0|f l es|c s1 IHs1 s2 IHs2|s IHs|x lo0 n s IHs| | |e0|l|e0]; intros g g' E; cbn in E; try discriminate E.
  - injection E as <-. exists []. reflexivity.
  - destruct (check r g s1) as [g1|] eqn:E1; [|discriminate E]. destruct (IHs1 _ _ E1) as [h1 ->]. destruct (IHs2 _ _ E) as [h2 ->].
    exists (h2 ++ h1)%list. rewrite app_assoc. reflexivity.
  - destruct e0 as [a|]; [|discriminate E]. destruct (type_e g a); [|discriminate E]. injection E as <-. exists [(x, t)]. reflexivity.
  - destruct (type_l g l); [|discriminate E]. destruct (type_e g e0); [|discriminate E]. destruct (ty_eqb _ _ && _); [|discriminate E].
    injection E as <-. exists []. reflexivity.
  - destruct (type_l g l); [|discriminate E]. destruct (type_es g es); [|discriminate E].
    match type of E with (if ?c then _ else _) = _ => destruct c end; [|discriminate E]. injection E as <-. exists []. reflexivity.
  - destruct (type_e g c) as [[]|]; try discriminate E. destruct (check r g s1); [|discriminate E]. destruct (check r g s2); [|discriminate E].
    match type of E with (if ?c then _ else _) = _ => destruct c end; [|discriminate E]. injection E as <-. exists []. reflexivity.
  - destruct (check r g s); [|discriminate E]. injection E as <-. exists []. reflexivity.
  - destruct (check r _ s); [|discriminate E]. injection E as <-. exists []. reflexivity.
  - destruct (type_e g e0); [|discriminate E]. destruct (ty_eqb t r); [|discriminate E]. injection E as <-. exists []. reflexivity.
Qed.

(** what holds when a statement is left: it fell through with its declarations in force, or it returned *)
Definition left_ok (r : ty) (s : stmt fn) (g g' : ctx) (en : env S) (o : option (val S)) : Prop :=
  match o with
  | None => env_ok S g' en /\ always s = false
  | Some v => has_ty r v = true /\ exists h, env_ok S (h ++ g)%list en
  end.
Notation ex := (exec S fn b sig call).
Lemma exec_ok : forall r s g g', check r g s = Some g' -> forall en, env_ok S g en ->
  forall k, (forall en' o, left_ok r s g g' en' o -> P (k en' o)) -> P (ex s en k).
Proof.
  destruct eval_ok as (EV & EVS & LO).
  intros r. induction s as [|s1 IHs1 s2 IHs2|x e0|l e0|f l es|c s1 IHs1 s2 IHs2|s IHs|x lo0 n s IHs| | |e0|l|e0]; intros g g' E en He k K; cbn [check] in E; try discriminate E.
  - injection E as <-. apply K. split; [exact He|reflexivity].
  - destruct (check r g s1) as [g1|] eqn:E1; [|discriminate E]. cbn [exec]. fold ex.
    apply (IHs1 g g1 E1 en He). intros en1 [v|] L.
    + destruct L as [L1 L2]. apply K. split; assumption.
    + destruct L as [L1 L2]. apply (IHs2 g1 g' E en1 L1). intros en2 [v|] M.
      * destruct M as [M1 [h M2]]. apply K. split; [exact M1|]. destruct (check_extends _ _ _ _ E1) as [h1 ->]. exists (h ++ h1)%list. rewrite <- app_assoc. exact M2.
      * destruct M as [M1 M2]. apply K. split; [exact M1|]. cbn [always]. rewrite L2, M2. reflexivity.
  - destruct e0 as [a|]; [|discriminate E]. destruct (type_e g a) as [t|] eqn:F; [|discriminate E]. injection E as <-. cbn [exec].
    apply (EV a g t F en He). intros v Hv. apply K. split; [|reflexivity]. constructor; [|exact He]. split; [reflexivity|]. exists v. tauto.
  - destruct (type_l g l) as [t|] eqn:Fl; [|discriminate E]. destruct (type_e g e0) as [u|] eqn:F; [|discriminate E].
    destruct (ty_eqb t u && named l) eqn:Q; [|discriminate E]. injection E as <-. apply andb_true_iff in Q. destruct Q as [Q1 Q2].
    apply ty_eqb_eq in Q1. subst u. cbn [exec].
    apply (EV e0 g t F en He). intros v Hv. apply (LO l g t Fl en He). intros x p Hx. rewrite Q2 in Hx.
    destruct (store_ok _ _ _ _ _ _ He Hx Hv) as (en' & -> & He'). apply K. split; [exact He'|reflexivity].
  - destruct (type_l g l) as [t|] eqn:Fl; [|discriminate E]. destruct (type_es g es) as [ts|] eqn:F; [|discriminate E].
    destruct (tys_eqb (t :: ts) (f_sig (code f)) && tys_eqb [t] (out_types (code f)) && safe f && named l) eqn:Q; [|discriminate E]. injection E as <-.
    rewrite !andb_true_iff in Q. destruct Q as [[[Q1 Q2] Q3] Q4]. apply tys_eqb_eq in Q1, Q2. cbn [exec].
    apply (EVS es g ts F en He). intros vs Hvs. apply (LO l g t Fl en He). intros x p Hx. rewrite Q4 in Hx.
    destruct (fetch_ok _ _ _ _ _ _ He Hx) as (v & -> & Hv). cbn [bind].
    assert (HH : forall2b has_ty (t :: ts) (v :: vs) = true) by (cbn; rewrite Hv; exact Hvs).
    destruct (do_call_ok f (t :: ts) (v :: vs) Q3 Q1 HH) as ([w os] & -> & R). cbn [bind].
    unfold result_ok in R. apply andb_true_iff in R. destruct R as [_ R]. rewrite <- Q2 in R. cbn [snd] in R.
    destruct os as [|v' [|]]; [discriminate R| |cbn in R; rewrite andb_false_r in R; discriminate R].
    cbn in R. rewrite andb_true_r in R. destruct (store_ok _ _ _ _ _ _ He Hx R) as (en' & -> & He'). apply K. split; [exact He'|reflexivity].
  - destruct (type_e g c) as [[]|] eqn:Fc; try discriminate E. destruct (check r g s1) as [g1|] eqn:E1; [|discriminate E].
    destruct (check r g s2) as [g2|] eqn:E2; [|discriminate E].
    destruct (Nat.eqb (List.length g1) (List.length g) && Nat.eqb (List.length g2) (List.length g)) eqn:Q; [|discriminate E]. injection E as <-.
    apply andb_true_iff in Q. destruct Q as [Q1 Q2]. apply Nat.eqb_eq in Q1, Q2.
    assert (g1 = g) as ->. { destruct (check_extends _ _ _ _ E1) as [[|d h] ->]; [reflexivity|]. cbn in Q1. rewrite app_length in Q1. lia. }
    assert (g2 = g) as ->. { destruct (check_extends _ _ _ _ E2) as [[|d h] ->]; [reflexivity|]. cbn in Q2. rewrite app_length in Q2. lia. }
    cbn [exec]. fold ex. apply (EV c g Tbool Fc en He). intros v Hv. destruct (bool_has v Hv) as [q ->]. destruct q.
    + apply (IHs1 g g E1 en He). intros en1 [v|] L; apply K; [exact L|]. destruct L as [L1 L2]. split; [exact L1|]. cbn [always]. rewrite L2. reflexivity.
    + apply (IHs2 g g E2 en He). intros en1 [v|] L; apply K; [exact L|]. destruct L as [L1 L2]. split; [exact L1|]. cbn [always]. rewrite L2. apply andb_false_r.
  - destruct (check r g s) as [g1|] eqn:E1; [|discriminate E]. injection E as <-. cbn [exec]. fold ex.
    apply (IHs g g1 E1 en He). intros en1 [v|] L.
    + destruct L as [L1 [h L2]]. apply K. split; [exact L1|]. exists []. exact (env_skip S h g en1 en L2 (env_length S _ _ He)).
    + destruct L as [L1 L2]. apply K. destruct (check_extends _ _ _ _ E1) as [h ->]. split; [|exact L2].
      exact (env_skip S h g en1 en L1 (env_length S _ _ He)).
  - destruct (check r ((x, Tint) :: g) s) as [g1|] eqn:E1; [|discriminate E]. injection E as <-. cbn [exec].
    change (forall en' o, left_ok r Skip g g en' o -> P (k en' o)) in K.
    revert lo0 en He. induction n as [|n IHn]; intros i en He; [apply K; split; [exact He|reflexivity]|].
    assert (He1 : env_ok S ((x, Tint) :: g) ((x, BVal S (VI i)) :: en)).
    { constructor; [|exact He]. split; [reflexivity|]. eexists; split; reflexivity. }
    apply (IHs _ g1 E1 _ He1). intros en1 [v|] L; cbn zeta.
    + destruct L as [L1 [h L2]]. apply K. split; [exact L1|]. exists [].
      change ((x, Tint) :: g) with ([(x, Tint)] ++ g)%list in L2. rewrite app_assoc in L2.
      exact (env_skip S _ g en1 en L2 (env_length S _ _ He)).
    + destruct L as [L1 L2]. apply IHn. destruct (check_extends _ _ _ _ E1) as [h ->].
      change ((x, Tint) :: g) with ([(x, Tint)] ++ g)%list in L1. rewrite app_assoc in L1.
      exact (env_skip S _ g en1 en L1 (env_length S _ _ He)).
  - destruct (type_e g e0) as [t|] eqn:F; [|discriminate E]. destruct (ty_eqb t r) eqn:Q; [|discriminate E]. injection E as <-.
    apply ty_eqb_eq in Q. subst t. cbn [exec]. apply (EV e0 g r F en He). intros v Hv. apply K. split; [exact Hv|]. exists []. exact He.
Qed.
End Programs.
