(** * Matrices as operators on lists *)
From Coq Require Import ZArith Reals List Lra Lia.
From Verif Require Import IEEE32 FloatBasics Types Spec SpecR SpecF32 SpecMat SpecGeo SpecErr RealTac LenLib SpecChain.
Import ListNotations.
Local Open Scope R_scope.

Lemma sum_ip n f g : sum_to n (fun k => f k * g k) = ip (map f (seq 0 n)) (map g (seq 0 n)).
Proof. unfold sum_to, ip. generalize (seq 0 n). induction l as [|a l IH]; cbn; [reflexivity|]. now rewrite IH. Qed.
Lemma sum_ext n f g : (forall k, (k < n)%nat -> f k = g k) -> sum_to n f = sum_to n g.
Proof. intros H. unfold sum_to. f_equal. apply map_ext_in. intros k Hk. apply in_seq in Hk. apply H. lia. Qed.
Lemma list_nth (v : list R) : v = map (fun k => nth k v 0) (seq 0 (length v)).
Proof. induction v as [|a v IH]; [reflexivity|]. cbn [length seq map nth]. f_equal. rewrite <- seq_shift, map_map. exact IH. Qed.
Lemma nth_map_seq {A} (f : nat -> A) n i d : (i < n)%nat -> nth i (map f (seq 0 n)) d = f i.
Proof. intros H. rewrite (nth_indep _ d (f 0%nat)) by (now rewrite map_length, seq_length). rewrite map_nth, seq_nth by exact H. reflexivity. Qed.
Lemma sq_le x y : 0 <= y -> x * x <= y * y -> Rabs x <= y.
Proof. intros P H. apply Rsqr_le_abs_0 in H. now rewrite (Rabs_pos_eq y) in H. Qed.
Lemma ip_norm_le u v : length u = length v -> Rabs (ip u v) <= norm u * norm v.
Proof.
  intros H. apply sq_le; [apply Rmult_le_pos; apply norm_pos|]. replace (norm u * norm v * (norm u * norm v)) with ((norm u * norm u) * (norm v * norm v)) by ring.
  rewrite !norm_sq. now apply cauchy_schwarz.
Qed.
Lemma norm_abs y : norm (map Rabs y) = norm y.
Proof.
  unfold norm. f_equal. unfold ip. induction y as [|x y IH]; [reflexivity|]. cbn. rewrite IH. f_equal.
  rewrite <- Rabs_mult. apply Rabs_pos_eq. nra.
Qed.
Lemma nth_le_norm l i : Rabs (nth i l 0) <= norm l.
Proof.
  apply sq_le; [apply norm_pos|]. rewrite norm_sq. unfold ip. revert i. induction l as [|a l IH]; intros [|i]; cbn; try lra.
  - pose proof (ip_pos l). unfold ip in *. nra.
  - specialize (IH i). nra.
Qed.
(** a list with entries of at most b *)
Lemma norm_const l b n : length l = n -> 0 <= b -> (forall i, (i < n)%nat -> Rabs (nth i l 0) <= b) -> norm l <= sqrt (INR n) * b.
Proof.
  intros Ln Pb H. apply Rsqr_incr_0_var; [|apply Rmult_le_pos; [apply sqrt_pos|exact Pb]]. unfold Rsqr. rewrite norm_sq.
  replace (sqrt (INR n) * b * (sqrt (INR n) * b)) with (sqrt (INR n) * sqrt (INR n) * (b * b)) by ring. rewrite sqrt_sqrt by apply pos_INR.
  revert n Ln H. induction l as [|a l IH]; intros n Ln H; subst n; cbn [length] in *; [cbn; lra|].
  rewrite S_INR. unfold ip in *. cbn [zip fold_right]. pose proof (IH _ eq_refl (fun i Hi => H (S i) ltac:(lia))) as Q.
  pose proof (H 0%nat ltac:(lia)) as Q0. cbn in Q0. assert (a * a <= b * b). { rewrite <- (Rabs_pos_eq (a * a)), Rabs_mult by nra. pose proof (Rabs_pos a). nra. } lra.
Qed.
Lemma sum_abs_le n (x : list R) : length x = n -> sum_to n (fun k => Rabs (nth k x 0)) <= sqrt (INR n) * norm x.
Proof.
  intros Lx. rewrite (sum_ext n _ (fun k => 1 * Rabs (nth k x 0))) by (intros; ring). rewrite sum_ip. eapply Rle_trans; [apply Rle_abs|].
  eapply Rle_trans; [apply ip_norm_le; now rewrite !map_length|].
  assert (E : map (fun k => Rabs (nth k x 0)) (seq 0 n) = map Rabs x) by (subst n; rewrite <- (map_map (fun k => nth k x 0) Rabs), <- list_nth; reflexivity).
  rewrite E, norm_abs. apply Rmult_le_compat_r; [apply norm_pos|].
  eapply Rle_trans; [apply (norm_const _ 1 n); [now rewrite map_length, seq_length|lra|]|lra].
  intros i Hi. rewrite (nth_map_seq (fun _ => 1)) by exact Hi. rewrite Rabs_R1. lra.
Qed.
Lemma sum_abs n f : Rabs (sum_to n f) <= sum_to n (fun k => Rabs (f k)).
Proof. unfold sum_to. generalize (seq 0 n). induction l as [|a l IH]; cbn; [rewrite Rabs_R0; lra|]. eapply Rle_trans; [apply Rabs_triang|]. lra. Qed.
Lemma sum_le n f g : (forall k, (k < n)%nat -> f k <= g k) -> sum_to n f <= sum_to n g.
Proof.
  intros H. unfold sum_to. assert (G : forall k, In k (seq 0 n) -> f k <= g k) by (intros k Hk; apply in_seq in Hk; apply H; lia). clear H.
  induction (seq 0 n) as [|a l IH]; cbn; [lra|]. apply Rplus_le_compat; [apply G; now left|]. apply IH. intros k Hk. apply G. now right.
Qed.
Lemma sum_scale n c f : sum_to n (fun k => c * f k) = c * sum_to n f.
Proof. unfold sum_to. generalize (seq 0 n). induction l as [|a l IH]; cbn; [ring|]. rewrite IH. ring. Qed.
Lemma sum_plus n f g : sum_to n (fun k => f k + g k) = sum_to n f + sum_to n g.
Proof. unfold sum_to. generalize (seq 0 n). induction l as [|a l IH]; cbn; [ring|]. rewrite IH. ring. Qed.
Lemma sum_minus n f g : sum_to n (fun k => f k - g k) = sum_to n f - sum_to n g.
Proof. unfold sum_to. generalize (seq 0 n). induction l as [|a l IH]; cbn; [ring|]. rewrite IH. ring. Qed.
Lemma sum_swap n m f : sum_to n (fun i => sum_to m (fun j => f i j)) = sum_to m (fun j => sum_to n (fun i => f i j)).
Proof.
  unfold sum_to. generalize (seq 0 n) as l, (seq 0 m) as k. induction l as [|a l IH]; intros k; cbn.
  - induction k as [|b k IH]; cbn; [reflexivity|]. rewrite <- IH. ring.
  - rewrite IH. clear IH. induction k as [|b k IH]; cbn; [ring|]. rewrite <- IH. ring.
Qed.
(** entries of a matrix given by its entries *)
Lemma nth_blocks n (ls : list (list R)) i j : Forall (fun l => length l = n) ls -> (i < n)%nat -> (j < length ls)%nat ->
  nth (j * n + i) (concat ls) 0 = nth i (nth j ls []) 0.
Proof.
  intros H Hi. revert j. induction H as [|l ls Hl F IH]; intros j Hj; [cbn in Hj; lia|]. cbn [concat]. destruct j as [|j].
  - cbn. apply app_nth1. lia.
  - rewrite app_nth2 by nia. replace (S j * n + i - length l)%nat with (j * n + i)%nat by (rewrite Hl; nia). cbn [nth]. apply IH. cbn in Hj. lia.
Qed.
Lemma ent_build n f i j : (i < n)%nat -> (j < n)%nat -> ent n (build_mat n f) i j = f i j.
Proof.
  intros Hi Hj. unfold ent, build_mat. rewrite nth_blocks; [|apply Forall_map, Forall_forall; intros; now rewrite map_length, seq_length|exact Hi|now rewrite map_length, seq_length].
  rewrite (nth_map_seq (fun j => map (fun i => f i j) (seq 0 n))) by exact Hj. now apply (nth_map_seq (fun i => f i j)).
Qed.
Lemma length_build n f : length (build_mat n f) = (n * n)%nat.
Proof.
  unfold build_mat. assert (G : forall l, length (concat (map (fun j => map (fun i => f i j) (seq 0 n)) l)) = (length l * n)%nat).
  { induction l as [|a l IH]; [reflexivity|]. cbn [map concat]. rewrite app_length, map_length, seq_length, IH. cbn. lia. }
  rewrite G, seq_length. reflexivity.
Qed.
Lemma length_mapply n a v : length (mapply n a v) = n.
Proof. unfold mapply. now rewrite map_length, seq_length. Qed.
Lemma nth_mapply n a v i : (i < n)%nat -> nth i (mapply n a v) 0 = sum_to n (fun k => ent n a i k * nth k v 0).
Proof. intros H. unfold mapply. now apply (nth_map_seq (fun i => sum_to n (fun k => ent n a i k * nth k v 0))). Qed.
Lemma mapply_ext n a b v w : (forall i k, (i < n)%nat -> (k < n)%nat -> ent n a i k * nth k v 0 = ent n b i k * nth k w 0) -> mapply n a v = mapply n b w.
Proof. intros H. unfold mapply. apply map_ext_in. intros i Hi. apply in_seq in Hi. apply sum_ext. intros k Hk. apply H; lia. Qed.
Lemma mapply_mprod n a b v : mapply n (mprod n a b) v = mapply n a (mapply n b v).
Proof.
  unfold mapply at 1 2. apply map_ext_in. intros i Hi. apply in_seq in Hi.
  rewrite (sum_ext n _ (fun k => sum_to n (fun l => ent n a i l * (ent n b l k * nth k v 0)))).
  - rewrite sum_swap. apply sum_ext. intros l Hl. rewrite sum_scale. now rewrite nth_mapply.
  - intros k Hk. unfold mprod. rewrite ent_build by lia. rewrite Rmult_comm, <- sum_scale. apply sum_ext. intros l _. ring.
Qed.

(** ** Norms of differences *)
Lemma norm_sub_le a b c n : length a = n -> length b = n -> length c = n -> norm (zip Rminus a c) <= norm (zip Rminus a b) + norm (zip Rminus b c).
Proof.
  intros La Lb Lc. replace (zip Rminus a c) with (zip Rplus (zip Rminus a b) (zip Rminus b c)).
  - apply norm_triangle. rewrite !zip_len; congruence.
  - revert a b c La Lb Lc. induction n as [|n IH]; intros [|x a] [|y b] [|z c] La Lb Lc; try discriminate; [reflexivity|]. cbn. f_equal; [ring|]. apply IH; now injection La + injection Lb + injection Lc.
Qed.
Lemma norm_le_sub a b n : length a = n -> length b = n -> norm a <= norm b + norm (zip Rminus a b).
Proof.
  intros La Lb. replace a with (zip Rplus b (zip Rminus a b)) at 1.
  - apply norm_triangle. rewrite zip_len; congruence.
  - revert a b La Lb. induction n as [|n IH]; intros [|x a] [|y b] La Lb; try discriminate; [reflexivity|]. cbn. f_equal; [ring|]. apply IH; now injection La + injection Lb.
Qed.
Lemma nth_zip_sub a b n i : length a = n -> length b = n -> nth i (zip Rminus a b) 0 = nth i a 0 - nth i b 0.
Proof.
  revert a b i. induction n as [|n IH]; intros [|x a] [|y b] i La Lb; try discriminate; destruct i; cbn; try ring. apply IH; now injection La + injection Lb.
Qed.

(** ** Stretch *)
Definition row (n : nat) (a : list R) (i : nat) : list R := map (fun k => ent n a i k) (seq 0 n).
Lemma length_row n a i : length (row n a i) = n. Proof. unfold row. now rewrite map_length, seq_length. Qed.
Lemma row_le n a c i : 0 <= c -> stretch_le n a c -> (i < n)%nat -> norm (row n a i) <= c.
Proof.
  intros Pc H Hi. pose proof (H (row n a i) (length_row n a i)) as Q. pose proof (nth_le_norm (mapply n a (row n a i)) i) as Q1.
  rewrite nth_mapply in Q1 by exact Hi. rewrite (sum_ext n _ (fun k => ent n a i k * ent n a i k)) in Q1.
  2:{ intros k Hk. unfold row. now rewrite (nth_map_seq (fun k => ent n a i k)) by exact Hk. }
  rewrite sum_ip in Q1. fold (row n a i) in Q1. rewrite <- norm_sq in Q1. pose proof (norm_pos (row n a i)) as P.
  rewrite Rabs_pos_eq in Q1 by nra. destruct (Rle_lt_or_eq_dec _ _ P) as [G|E]; [|lra]. apply Rmult_le_reg_r with (norm (row n a i)); [exact G|]. exact (Rle_trans _ _ _ Q1 Q).
Qed.
Definition unit_vec (n j : nat) : list R := map (fun k => if Nat.eqb k j then 1 else 0) (seq 0 n).
Lemma sum_unit n j f : (j < n)%nat -> sum_to n (fun k => f k * (if Nat.eqb k j then 1 else 0)) = f j.
Proof.
  intros H. unfold sum_to. assert (G : forall m s, fold_right Rplus 0 (map (fun k => f k * (if Nat.eqb k j then 1 else 0)) (seq s m)) = if andb (Nat.leb s j) (Nat.ltb j (s + m)) then f j else 0).
  { induction m as [|m IH]; intros s; cbn [seq map fold_right].
    - destruct (Nat.leb_spec s j), (Nat.ltb_spec j (s + 0)); try lia; reflexivity.
    - rewrite IH. destruct (Nat.eqb_spec s j) as [->|N].
      + destruct (Nat.leb_spec (S j) j), (Nat.leb_spec j j), (Nat.ltb_spec j (S j + m)), (Nat.ltb_spec j (j + S m)); try lia; cbn; ring.
      + destruct (Nat.leb_spec (S s) j), (Nat.leb_spec s j), (Nat.ltb_spec j (S s + m)), (Nat.ltb_spec j (s + S m)); try lia; cbn; ring. }
  rewrite G. destruct (Nat.leb_spec 0 j), (Nat.ltb_spec j (0 + n)); try lia. reflexivity.
Qed.
Lemma norm_unit n j : (j < n)%nat -> norm (unit_vec n j) = 1.
Proof.
  intros H. apply norm1_ip. unfold unit_vec. rewrite <- sum_ip. rewrite (sum_unit n j (fun k => if Nat.eqb k j then 1 else 0) H). now rewrite Nat.eqb_refl.
Qed.
Lemma column_le n a c j : stretch_le n a c -> (j < n)%nat -> norm (column n a j) <= c.
Proof.
  intros H Hj. pose proof (H (unit_vec n j)) as Q. unfold unit_vec at 1 in Q. rewrite map_length, seq_length in Q. specialize (Q eq_refl). rewrite norm_unit, Rmult_1_r in Q by exact Hj.
  replace (column n a j) with (mapply n a (unit_vec n j)); [exact Q|]. unfold mapply, column. apply map_ext_in. intros i Hi.
  rewrite <- (sum_unit n j (fun k => ent n a i k) Hj). apply sum_ext. intros k Hk. unfold unit_vec. now rewrite (nth_map_seq (fun k => if Nat.eqb k j then 1 else 0)).
Qed.
Lemma stretch_mprod n a b c d : 0 <= c -> stretch_le n a c -> stretch_le n b d -> stretch_le n (mprod n a b) (c * d).
Proof.
  intros Pc Ha Hb x Lx. rewrite mapply_mprod. eapply Rle_trans; [apply Ha, length_mapply|]. rewrite Rmult_assoc. apply Rmult_le_compat_l; [exact Pc|now apply Hb].
Qed.
Lemma within_mprod n a b m e c : 0 <= e -> within n a b e -> stretch_le n m c -> within n (mprod n a m) (mprod n b m) (e * c).
Proof.
  intros Pe H Hm x Lx. rewrite !mapply_mprod. eapply Rle_trans; [apply H, length_mapply|]. rewrite Rmult_assoc. apply Rmult_le_compat_l; [exact Pe|now apply Hm].
Qed.
Lemma within_trans n a b c e f : within n a b e -> within n b c f -> within n a c (e + f).
Proof.
  intros H K x Lx. eapply Rle_trans; [apply (norm_sub_le _ (mapply n b x) _ n); apply length_mapply|]. pose proof (H x Lx). pose proof (K x Lx). lra.
Qed.
Lemma within_stretch n a b e c : within n a b e -> stretch_le n b c -> stretch_le n a (c + e).
Proof.
  intros H K x Lx. eapply Rle_trans; [apply (norm_le_sub _ (mapply n b x) n); apply length_mapply|]. pose proof (H x Lx). pose proof (K x Lx). lra.
Qed.
Lemma within_refl n a : within n a a 0.
Proof.
  intros x Lx. rewrite Rmult_0_l. right. apply norm_zero. apply zip_sub_self.
Qed.
(** entrywise distance *)
Lemma within_entries n a b e : 0 <= e -> (forall i j, (i < n)%nat -> (j < n)%nat -> Rabs (ent n a i j - ent n b i j) <= e) -> within n a b (INR n * e).
Proof.
  intros Pe H x Lx. assert (LZ : length (zip Rminus (mapply n a x) (mapply n b x)) = n) by (rewrite zip_len; rewrite !length_mapply; reflexivity).
  replace (INR n * e * norm x) with (sqrt (INR n) * (e * (sqrt (INR n) * norm x))).
  2:{ replace (sqrt (INR n) * (e * (sqrt (INR n) * norm x))) with (sqrt (INR n) * sqrt (INR n) * (e * norm x)) by ring. rewrite sqrt_sqrt by apply pos_INR. ring. }
  apply norm_const; [exact LZ|apply Rmult_le_pos; [exact Pe|apply Rmult_le_pos; [apply sqrt_pos|apply norm_pos]]|].
  intros i Hi. rewrite (nth_zip_sub _ _ n) by apply length_mapply. rewrite !nth_mapply by exact Hi. rewrite <- sum_minus.
  eapply Rle_trans; [apply sum_abs|]. apply Rle_trans with (sum_to n (fun k => e * Rabs (nth k x 0))).
  - apply sum_le. intros k Hk. rewrite <- Rmult_minus_distr_r, Rabs_mult. apply Rmult_le_compat_r; [apply Rabs_pos|now apply H].
  - rewrite sum_scale. apply Rmult_le_compat_l; [exact Pe|now apply sum_abs_le].
Qed.
(** the product of the absolute values *)
Lemma mprod_abs n a b c d i j : 0 <= c -> stretch_le n a c -> stretch_le n b d -> (i < n)%nat -> (j < n)%nat ->
  ent n (mprod n (map Rabs a) (map Rabs b)) i j <= c * d.
Proof.
  intros Pc Ha Hb Hi Hj. unfold mprod. rewrite ent_build by assumption.
  assert (EA : forall l p q, ent n (map Rabs l) p q = Rabs (ent n l p q)) by (intros l p q; unfold ent; rewrite <- Rabs_R0 at 1; now rewrite map_nth).
  rewrite (sum_ext n _ (fun k => Rabs (ent n a i k) * Rabs (ent n b k j))) by (intros k _; now rewrite !EA). rewrite sum_ip.
  eapply Rle_trans; [apply Rle_abs|]. eapply Rle_trans; [apply ip_norm_le; now rewrite !map_length|].
  pose proof (row_le n a c i Pc Ha Hi) as R1. pose proof (column_le n b d j Hb Hj) as C1. unfold row in R1. unfold column in C1.
  rewrite <- norm_abs, map_map in R1. rewrite <- norm_abs, map_map in C1. apply Rmult_le_compat; trivial; apply norm_pos.
Qed.
Lemma mapply_abs n a c v i : 0 <= c -> stretch_le n a c -> length v = n -> (i < n)%nat -> nth i (mapply n (map Rabs a) (map Rabs v)) 0 <= c * norm v.
Proof.
  intros Pc Ha Lv Hi. rewrite nth_mapply by exact Hi.
  assert (EA : forall l p q, ent n (map Rabs l) p q = Rabs (ent n l p q)) by (intros l p q; unfold ent; rewrite <- Rabs_R0 at 1; now rewrite map_nth).
  assert (EV : forall k, nth k (map Rabs v) 0 = Rabs (nth k v 0)) by (intros k; rewrite <- Rabs_R0 at 1; now rewrite map_nth).
  rewrite (sum_ext n _ (fun k => Rabs (ent n a i k) * Rabs (nth k v 0))) by (intros k _; now rewrite EA, EV). rewrite sum_ip.
  eapply Rle_trans; [apply Rle_abs|]. eapply Rle_trans; [apply ip_norm_le; now rewrite !map_length|].
  pose proof (row_le n a c i Pc Ha Hi) as R1. unfold row in R1. rewrite <- norm_abs, map_map in R1.
  assert (E : map (fun k => Rabs (nth k v 0)) (seq 0 n) = map Rabs v) by (subst n; rewrite <- (map_map (fun k => nth k v 0) Rabs), <- list_nth; reflexivity).
  rewrite E, norm_abs. apply Rmult_le_compat_r; [apply norm_pos|exact R1].
Qed.
Lemma ent_le n a c i j : 0 <= c -> stretch_le n a c -> (i < n)%nat -> (j < n)%nat -> Rabs (ent n a i j) <= c.
Proof.
  intros Pc Ha Hi Hj. eapply Rle_trans; [|exact (row_le n a c i Pc Ha Hi)]. unfold row.
  rewrite <- (nth_map_seq (fun k => ent n a i k) n j 0 Hj). apply nth_le_norm.
Qed.
