(** * Bounding a polynomial on an interval

    [pcover] checks |P| <= B for a polynomial with integer coefficients on every interval between consecutive
    breakpoints (integers over a common denominator), by expanding P exactly at the midpoint and adding up the absolute
    values of the coefficients times powers of the half-width. *)
From Coq Require Import ZArith Reals List Lra Lia Bool.
Import ListNotations.

Fixpoint evalR (p : list Z) (x : R) : R := match p with [] => 0%R | c :: p' => (IZR c + x * evalR p' x)%R end.

(** sum, product with a constant, and p(x + m) *)
Fixpoint padd (p q : list Z) : list Z := match p, q with
  | [], _ => q | _, [] => p | a :: p', b :: q' => (a + b)%Z :: padd p' q' end.
Fixpoint pshift (p : list Z) (m : Z) : list Z := match p with
  | [] => [] | c :: p' => let q := pshift p' m in padd (c :: q) (map (Z.mul m) q) end.
(** D^n p(X / D) as a polynomial in X *)
Fixpoint pscale (p : list Z) (D : Z) : list Z * Z := match p with
  | [] => ([], 1%Z) | c :: p' => let '(q, e) := pscale p' D in ((c * e * D)%Z :: q, (e * D)%Z) end.
(** the sum of |c_k| h^k *)
Fixpoint psize (p : list Z) (h : Z) : Z := match p with [] => 0%Z | c :: p' => (Z.abs c + h * psize p' h)%Z end.

Local Open Scope R_scope.
Lemma padd_ok p q x : evalR (padd p q) x = evalR p x + evalR q x.
Proof. revert q. induction p as [|a p IH]; intros [|b q]; cbn; try lra. rewrite IH, plus_IZR. ring. Qed.
Lemma pmul_ok m p x : evalR (map (Z.mul m) p) x = IZR m * evalR p x.
Proof. induction p as [|a p IH]; cbn [map evalR]; [ring|]. rewrite IH, mult_IZR. ring. Qed.
Lemma pshift_ok p m x : evalR (pshift p m) x = evalR p (x + IZR m).
Proof. induction p as [|c p IH]; [reflexivity|]. cbn [pshift]. rewrite padd_ok, pmul_ok. cbn [evalR]. rewrite IH. ring. Qed.
Lemma pscale_ok p D X : (0 < D)%Z -> let '(q, e) := pscale p D in (0 < e)%Z /\ evalR q X = IZR e * evalR p (X / IZR D).
Proof.
  intros HD. induction p as [|c p IH]; [split; [lia|cbn; ring]|]. cbn [pscale]. destruct (pscale p D) as [q e]. destruct IH as [He IH]. split; [nia|].
  cbn [evalR]. rewrite IH, !mult_IZR. apply IZR_lt in HD. field. lra.
Qed.
Lemma psize_ok p h x : Rabs x <= IZR h -> Rabs (evalR p x) <= IZR (psize p h).
Proof.
  intros H. induction p as [|c p IH]; cbn; [rewrite Rabs_R0; lra|]. rewrite plus_IZR, abs_IZR, mult_IZR.
  eapply Rle_trans; [apply Rabs_triang|]. apply Rplus_le_compat_l. rewrite Rabs_mult. apply Rmult_le_compat; trivial; apply Rabs_pos.
Qed.

(** the intervals between the breakpoints [bs], scaled polynomial [q], bound [B] *)
Fixpoint pieces (q : list Z) (B : Z) (a : Z) (bs : list Z) : bool := match bs with
  | [] => true
  | b :: bs' => if (psize (pshift q (a + b)) (b - a) <=? B)%Z then pieces q B b bs' else false end.
Lemma pieces_ok q B a bs : pieces q B a bs = true -> forall X, 2 * IZR a <= X <= 2 * IZR (last bs a) -> bs = [] \/ Rabs (evalR q X) <= IZR B.
Proof.
  revert a. induction bs as [|b bs IH]; intros a H X HX; [now left|right]. cbn [pieces] in H.
  destruct (_ <=? _)%Z eqn:T in H; [|discriminate]. apply Z.leb_le, IZR_le in T.
  destruct (Rle_or_lt X (2 * IZR b)) as [C|C].
  - eapply Rle_trans; [|exact T]. replace X with (X - IZR (a + b) + IZR (a + b)) by ring. rewrite <- pshift_ok. apply psize_ok.
    rewrite plus_IZR, minus_IZR. apply Rabs_le. lra.
  - destruct bs as [|b' bs]; [cbn in HX; lra|]. assert (E : last (b :: b' :: bs) a = last (b' :: bs) b).
    { clear. change (last (b :: b' :: bs) a) with (last (b' :: bs) a). generalize b'. induction bs as [|c bs IH]; intros d; [reflexivity|].
      change (last (d :: c :: bs) a) with (last (c :: bs) a). now rewrite IH. }
    rewrite E in HX. destruct (IH b H X) as [Z|Z]; [lra|discriminate Z|exact Z].
Qed.
Definition pcover (p : list Z) (B d a : Z) (bs : list Z) : bool :=
  let '(q, e) := pscale p (2 * d) in pieces q (B * e) a bs.
Lemma pcover_ok p B d a b bs : (0 < d)%Z -> pcover p B d a (bs ++ [b]) = true ->
  forall x, IZR a <= x * IZR d <= IZR b -> Rabs (evalR p x) <= IZR B.
Proof.
  intros Hd H x Hx. unfold pcover in H. pose proof (pscale_ok p (2 * d) (x * (2 * IZR d)) ltac:(lia)) as P. destruct (pscale p (2 * d)) as [q e]. destruct P as [He P].
  pose proof (pieces_ok _ _ _ _ H (x * (2 * IZR d))) as Q. rewrite last_last in Q. destruct Q as [Q|Q]; [lra|symmetry in Q; now apply app_cons_not_nil in Q|].
  rewrite P, Rabs_mult, (mult_IZR B e) in Q. apply IZR_lt in He. rewrite (Rabs_pos_eq (IZR e)) in Q by lra.
  replace (x * (2 * IZR d) / IZR (2 * d)) with x in Q by (rewrite mult_IZR; apply IZR_lt in Hd; field; lra).
  apply Rmult_le_reg_l with (IZR e); [exact He|]. rewrite (Rmult_comm (IZR e) (IZR B)). exact Q.
Qed.
