(** * Proofs: reflection and refraction in binary32 *)
From Coq Require Import ZArith Bool Reals List Lra Lia.
From Flocq Require Import Core IEEE754.BinarySingleNaN.
From Verif Require Import Scalar IEEE32 RealInst Types Spec SpecR SpecF32 SpecErr SpecOrd SpecDom SpecAcc SpecRefract FloatBasics FloatOps
  ModelVec ModelCommon ModelExp ModelGeom F32Tac RealTac.
Import ListNotations.
Local Open Scope R_scope.
(*HEADER END*)
From Coq Require Import Psatz.
From Verif Require Import FloatAlg ErrLib OvfLib LenLib RelLib ScaleLib MonoLib DomLib PfErr PfOvf PfLen PfDomain PfQuatAcc PfOctAcc VecErrLib AbsLib.

(** ** Inner products of lists *)
Lemma ip_sub_l A B C : length A = length B -> length B = length C -> ip (zip Rminus A B) C = ip A C - ip B C.
Proof.
  revert B C. induction A as [|a A IH]; intros [|b B] [|c C] H K; try discriminate; unfold ip in *; cbn [zip fold_right]; [ring|]. rewrite IH by (cbn in *; lia). ring.
Qed.
Lemma ip_comm' A B : ip A B = ip B A.
Proof. revert B. induction A as [|a A IH]; intros [|b B]; try reflexivity. unfold ip in *. cbn [zip fold_right]. rewrite IH. ring. Qed.
Lemma ip_scale_l k A B : ip (map (Rmult k) A) B = k * ip A B.
Proof. revert B. induction A as [|a A IH]; intros [|b B]; unfold ip in *; cbn [map zip fold_right]; try ring. rewrite IH. ring. Qed.
Lemma zip_len {A B C} (f : A -> B -> C) X Y : length X = length Y -> length (zip f X Y) = length X.
Proof. revert Y. induction X as [|x X IH]; intros [|y Y] H; try discriminate; [reflexivity|]. cbn in *. now rewrite IH by lia. Qed.
Lemma ip_cs A B : length A = length B -> Rabs (ip A B) <= norm A * norm B.
Proof.
  intros E. pose proof (cauchy_schwarz A B E) as C. apply Rsqr_incr_0_var; [|apply Rmult_le_pos; apply norm_nn]. rewrite <- Rsqr_abs. unfold Rsqr.
  replace (norm A * norm B * (norm A * norm B)) with ((norm A * norm A) * (norm B * norm B)) by ring. now rewrite !norm_sq.
Qed.
Lemma sine2_unit I N : length I = length N -> norm I = 1 -> norm N = 1 -> sine2 I N = 1 - ip I N * ip I N.
Proof.
  intros E HI HN. assert (II : ip I I = 1) by (rewrite <- norm_sq, HI; ring). assert (NN : ip N N = 1) by (rewrite <- norm_sq, HN; ring).
  unfold sine2, tangential. assert (LM : length (map (Rmult (ip I N)) N) = length I) by (now rewrite map_length). set (M := map (Rmult (ip I N)) N) in *.
  rewrite ip_sub_l by (rewrite ?zip_len; congruence). rewrite (ip_comm' I), (ip_comm' M). rewrite !ip_sub_l by congruence. unfold M. rewrite (ip_comm' I (map _ _)), !ip_scale_l, (ip_comm' N (map _ _)), ip_scale_l, II, NN, (ip_comm' N I). ring.
Qed.
(** ** The inner product of nearly unit vectors *)
Lemma close_norm d c X : all_close d c X -> (length c <= 4)%nat -> 0 <= d -> length (vals c) = length X /\ norm (zip Rminus (vals c) X) <= 2 * d.
Proof.
  intros H LC Hd. assert (G : forall c X, all_close d c X -> length (vals c) = length X /\ ip (zip Rminus (vals c) X) (zip Rminus (vals c) X) <= INR (length c) * (d * d)).
  { clear. induction c as [|c cs IH]; intros X H; inversion H as [|? ? ? ? [F K] T]; subst; [split; [reflexivity|cbn; lra]|]. destruct (IH _ T) as [A B]. split; [apply (f_equal S A)|].
    unfold ip in *. cbn [vals map zip fold_right]. change (length (c :: cs)) with (S (length cs)). rewrite S_INR. fold (vals cs).
    assert ((b2r c - y) * (b2r c - y) <= d * d) by (rewrite <- abs_sq; apply Rmult_le_compat; trivial; apply Rabs_pos). lra. }
  destruct (G c X H) as [A B]. split; [exact A|]. apply sq_le_norm; [lra|]. assert (INR (length c) <= 4) by (replace 4 with (INR 4) by (cbn; ring); now apply le_INR). pose proof (Rle_0_sqr d) as P. unfold Rsqr in P. nra.
Qed.
Lemma near_norm_list A B e : length A = length B -> norm (zip Rminus A B) <= e -> norm A <= norm B + e.
Proof.
  intros E H. assert (EQ : A = zip Rplus B (zip Rminus A B)). { clear H. revert B E. induction A as [|a A IH]; intros [|b B] E; try discriminate; [reflexivity|]. cbn. rewrite <- IH by (cbn in E; lia). f_equal. ring. }
  rewrite EQ. eapply Rle_trans; [apply norm_triangle; rewrite zip_len; congruence|]. lra.
Qed.
Lemma ip_perturb A B N I d : length A = length N -> length B = length I -> length N = length I -> norm (zip Rminus A N) <= 2 * d -> norm (zip Rminus B I) <= 2 * d -> norm N = 1 -> norm I = 1 -> 0 <= d <= / 1000 ->
  Rabs (ip A B - ip N I) <= 401/100 * d /\ norm A <= 1002/1000 /\ norm B <= 1002/1000.
Proof.
  intros LA LB LN HA HB HN HI Hd. pose proof (near_norm_list _ _ _ LA HA) as NA. pose proof (near_norm_list _ _ _ LB HB) as NB. rewrite HN in NA. rewrite HI in NB. split; [|lra].
  replace (ip A B - ip N I) with (ip (zip Rminus A N) B + ip (zip Rminus B I) N) by (rewrite !ip_sub_l by congruence; rewrite (ip_comm' B N), (ip_comm' I N); ring).
  eapply Rle_trans; [apply Rabs_triang|]. pose proof (ip_cs (zip Rminus A N) B ltac:(rewrite zip_len; congruence)) as C1. pose proof (ip_cs (zip Rminus B I) N ltac:(rewrite zip_len; congruence)) as C2. rewrite HN in C2.
  assert (norm (zip Rminus A N) * norm B <= (2 * d) * (1 + 2 * d)) by (apply Rmult_le_compat; trivial; apply norm_nn). assert (2 * d * (1 + 2 * d) <= 2 * d * (1002/1000)) by (apply Rmult_le_compat_l; lra). lra.
Qed.
(** a list of floats, its finite inner product and a bound for each entry *)
Definition E1 (d : R) : R := 401/100 * d + 403/100 * u.
Lemma dot_unit {V} (comps : V -> list f32) (dot : V -> V -> f32) k : (k <= 4)%nat -> dot_error_ok k comps dot -> (forall a b, no_overflow (INR k) 2 (comps a ++ comps b) [dot a b]) -> (forall a, length (comps a) = k) ->
  forall i n I N d, near_units comps d i n I N -> length I = length N /\ ab (E1 d) (dot n i) (ip N I).
Proof.
  intros Hk HD HO HLn i n I N d (HI & HN & Hd & Ci & Cn). pose proof u_val as Hu. pose proof tiny_small as Ht.
  destruct (close_norm d _ _ Ci) as [Li Ni]; [rewrite HLn; exact Hk|lra|]. destruct (close_norm d _ _ Cn) as [Ln Nn]; [rewrite HLn; exact Hk|lra|].
  assert (LE : length I = length N) by (rewrite <- Li, <- Ln; unfold vals; rewrite !map_length, !HLn; reflexivity). split; [exact LE|].
  destruct (ip_perturb _ _ _ _ d Ln Li (eq_sym LE) Nn Ni HN HI Hd) as (P & BA & BB).
  assert (FI : forall c X, all_close d c X -> all_finite c) by (clear; intros c X H; induction H as [|a b A B [F _] T IH]; constructor; assumption).
  assert (BD : forall c : list f32, norm (vals c) <= 1002/1000 -> bounded_by 2 c).
  { clear. intros c. unfold bounded_by. induction c as [|a c IH]; intros H; [constructor|]. assert (Q : ip (vals (a :: c)) (vals (a :: c)) <= 1002/1000 * (1002/1000)) by (rewrite <- norm_sq; apply Rmult_le_compat; trivial; apply norm_nn).
    assert (D : ip (vals (a :: c)) (vals (a :: c)) = b2r a * b2r a + ip (vals c) (vals c)) by reflexivity. pose proof (ip_pos (vals c)) as PC. pose proof (Rle_0_sqr (b2r a)) as PA. unfold Rsqr in PA. constructor.
    - apply Rabs_le. nra.
    - apply IH. apply sq_le_norm; [lra|]. lra. }
  assert (F : finite (dot n i)).
  { assert (X : all_finite [dot n i]); [|unfold all_finite in X; now apply Forall_cons_iff in X]. apply (HO n i 2); [lra| | |].
    - unfold all_finite. apply Forall_app. split; eapply FI; eassumption.
    - unfold bounded_by. apply Forall_app. split; apply BD; assumption.
    - assert (INR k <= 4) by (replace 4 with (INR 4) by (cbn; ring); now apply le_INR). apply Rle_lt_trans with 16; [cbn [pow]; lra|now apply (IZR_lt 16)]. }
  split; [exact F|]. specialize (HD n i F). unfold near in HD. assert (TI : forall X Y : list R, total (map (fun p => fst p * snd p) (combine X Y)) = ip X Y) by (clear; induction X as [|x X IH]; intros [|y Y]; try reflexivity; unfold ip in *; cbn; now rewrite <- IH).
  assert (MG : forall c, mags c = map Rabs (vals c)) by (intros c; unfold mags, vals; now rewrite map_map). rewrite !TI, !MG in HD.
  assert (GK : 0 <= gam k * ip (map Rabs (vals (comps n))) (map Rabs (vals (comps i))) <= 4018/1000 * u).
  { assert (KK : INR k <= 4) by (replace 4 with (INR 4) by (cbn; ring); now apply le_INR). assert (K0 : 0 <= INR k) by apply pos_INR. assert (KU : 0 <= INR k * u <= 4 * u) by (split; [apply Rmult_le_pos; lra|apply Rmult_le_compat_r; lra]).
    assert (G : 0 <= gam k <= 40001/10000 * u). { unfold gam. change ulp_half with u. split; [apply Rmult_le_pos; [lra|left; apply Rinv_0_lt_compat; lra]|]. apply Rmult_le_reg_r with (1 - INR k * u); [lra|]. replace (INR k * u / (1 - INR k * u) * (1 - INR k * u)) with (INR k * u) by (field; lra). nra. }
    assert (LL : length (vals (comps n)) = length (vals (comps i))) by congruence. pose proof (ip_cs (map Rabs (vals (comps n))) (map Rabs (vals (comps i))) ltac:(now rewrite !map_length)) as C. rewrite !norm_abs in C.
    assert (C' : norm (vals (comps n)) * norm (vals (comps i)) <= 1002/1000 * (1002/1000)) by (apply Rmult_le_compat; trivial; apply norm_nn).
    assert (PP : 0 <= ip (map Rabs (vals (comps n))) (map Rabs (vals (comps i)))). { generalize (vals (comps n)) (vals (comps i)). clear. induction l as [|x l IH]; intros [|y m]; unfold ip in *; cbn; try lra. specialize (IH m). assert (0 <= Rabs x * Rabs y) by (apply Rmult_le_pos; apply Rabs_pos). lra. }
    rewrite Rabs_pos_eq in C by exact PP. set (Z := ip _ _) in *. split; [apply Rmult_le_pos; lra|]. apply Rle_trans with (40001/10000 * u * (1002/1000 * (1002/1000))); [apply Rmult_le_compat; lra|]. lra. }
  replace (b2r (dot n i) - ip N I) with ((b2r (dot n i) - ip (vals (comps n)) (vals (comps i))) + (ip (vals (comps n)) (vals (comps i)) - ip N I)) by ring. eapply Rle_trans; [apply Rabs_triang|].
  assert (KT : INR k * tiny <= 4 * tiny) by (apply Rmult_le_compat_r; [lra|]; replace 4 with (INR 4) by (cbn; ring); now apply le_INR). unfold E1. lra.
Qed.
(** ** One component *)
Lemma E1_small d : 0 <= d <= / 1000 -> 0 <= E1 d <= 41/10000. Proof. intros H. pose proof u_val. unfold E1. lra. Qed.
Lemma lit1 : ab 0 (f32_lit 1 0) 1.
Proof. assert (E : b2r (f32_lit 1 0) = 1) by (unfold f32_lit; vm_compute; lra). rewrite <- E. apply ab_exact. reflexivity. Qed.
Lemma lit2 : ab 0 (f32_lit 2 0) 2.
Proof. assert (E : b2r (f32_lit 2 0) = 2) by (unfold f32_lit; vm_compute; lra). rewrite <- E. apply ab_exact. reflexivity. Qed.
Lemma abs1 x : -1 <= x <= 1 -> Rabs x <= 1. Proof. apply Rabs_le. Qed.
Definition disc (eta c : f32) : f32 := Bminus mode_NE (f32_lit 1 0) (Bmult mode_NE (Bmult mode_NE eta eta) (Bminus mode_NE (f32_lit 1 0) (Bmult mode_NE c c))).
Lemma disc_near eta c C d : 0 <= d <= / 1000 -> between 0 4 eta -> ab (E1 d) c C -> -1 <= C <= 1 ->
  ab (margin (b2r eta) d * (99/100)) (disc eta c) (1 - b2r eta * b2r eta * (1 - C * C)).
Proof.
  intros Hd [Fe He] Hc HC. pose proof u_val as Hu. pose proof tiny_small as Ht. pose proof (E1_small d Hd) as ES. set (h := b2r eta) in *. set (e1 := E1 d) in *. pose proof (abs1 C HC) as AC. pose proof (Rabs_pos C) as PC.
  assert (C2 : 0 <= C * C <= 1) by nra. assert (H16 : 0 <= h * h <= 16) by nra.
  assert (K1 : ab (2005/1000 * e1 + u * (101/100) + tiny) (Bmult mode_NE c c) (C * C)). { apply (ab_mul e1 e1 c c C C _ (101/100) Hc Hc); try lra; [nra|]. rewrite Rabs_pos_eq by lra. lra. }
  set (e2 := 2005/1000 * e1 + u * (101/100) + tiny) in *. assert (E2 : 0 <= e2 <= 9/1000) by (unfold e2; lra).
  assert (K2 : ab (0 + e2 + u * (101/100) + tiny) (Bminus mode_NE (f32_lit 1 0) (Bmult mode_NE c c)) (1 - C * C)). { apply (ab_sub 0 e2 _ _ 1 (C * C) (101/100) lit1 K1); try lra; rewrite Rabs_pos_eq by lra; lra. }
  set (e3 := 0 + e2 + u * (101/100) + tiny) in *. assert (E3 : 0 <= e3 <= 95/10000) by (unfold e3; lra).
  assert (K3 : ab (0 + u * (h * h) + tiny) (Bmult mode_NE eta eta) (h * h)). { apply (ab_mul 0 0 eta eta h h 0 (h * h) (ab_exact _ Fe) (ab_exact _ Fe)); try lra; rewrite Rabs_pos_eq by lra; lra. }
  set (A := h * h) in *. set (B := 1 - C * C) in *. assert (HB : 0 <= B <= 1) by (unfold B; lra). set (eg := 0 + u * A + tiny) in *. assert (UA : 0 <= u * A <= u * 16) by (split; [apply Rmult_le_pos; lra|apply Rmult_le_compat_l; lra]). assert (EG : 0 <= eg <= / 100000) by (unfold eg; lra).
  assert (M1 : eg * Rabs B + e3 * Rabs A + eg * e3 <= 101/100 * eg + e3 * A). { rewrite !Rabs_pos_eq by lra. assert (eg * B <= eg * 1) by (apply Rmult_le_compat_l; lra). assert (eg * e3 <= eg * (/ 100)) by (apply Rmult_le_compat_l; lra). lra. }
  assert (EA : 0 <= e3 * A <= 95/10000 * A) by (split; [apply Rmult_le_pos; lra|apply Rmult_le_compat_r; lra]).
  assert (AB : 0 <= A * B <= A) by (split; [apply Rmult_le_pos; lra|rewrite <- (Rmult_1_r A) at 2; apply Rmult_le_compat_l; lra]).
  assert (K4 : ab (101/100 * eg + e3 * A + u * (102/100 * A + / 1000) + tiny) (Bmult mode_NE (Bmult mode_NE eta eta) (Bminus mode_NE (f32_lit 1 0) (Bmult mode_NE c c))) (A * B)).
  { apply (ab_mul eg e3 _ _ A B _ _ K3 K2); try lra; try (rewrite Rabs_pos_eq by lra; lra). }
  set (ep := 101/100 * eg + e3 * A + u * (102/100 * A + / 1000) + tiny) in *. assert (EP : 0 <= ep <= 16/100) by (unfold ep; lra).
  assert (KM : Rabs (1 - A * B) <= 1 + A) by (apply Rabs_le; lra).
  unfold disc. eapply ab_weak; [|apply (ab_sub 0 ep _ _ 1 (A * B) (116/100 + A) lit1 K4); try lra; try (rewrite Rabs_pos_eq by lra; lra)].
  unfold ep, eg, e3, e2, margin. unfold e1, E1. fold A. change ulp_half with u in *. assert (AD : 0 <= A * d) by (apply Rmult_le_pos; lra). assert (AT : A * tiny <= 16 * tiny) by (apply Rmult_le_compat_r; lra). lra.
Qed.
Definition part (eta w a b : f32) : f32 := Bminus mode_NE (Bmult mode_NE eta a) (Bmult mode_NE w b).
Definition weight (eta c k : f32) : f32 := Bplus mode_NE (Bmult mode_NE eta c) (Bsqrt mode_NE k).
Lemma sqrt_near k K e s : ab e k K -> 0 < s -> s * s <= K -> 4 * e <= s * s -> K <= 1 -> ab (e / s + 125/100 * u + tiny) (Bsqrt mode_NE k) (sqrt K).
Proof.
  intros Hk Hs HK He K1. pose proof u_val as Hu. pose proof (ab_pos _ _ _ Hk) as Pe. destruct Hk as [F Kk]. apply Rabs_le_inv in Kk. assert (SK : s <= sqrt K) by (rewrite <- (sqrt_square s) by lra; now apply sqrt_le_1_alt).
  assert (Pk : 0 <= b2r k) by nra. pose proof (sqrt_pos (b2r k)) as PS. pose proof (sqrt_sqrt _ Pk) as Q1. pose proof (sqrt_sqrt K ltac:(nra)) as Q2.
  assert (S1 : s <= 1) by nra. assert (ES : 0 <= e / s <= / 4). { split; [apply Rmult_le_pos; [exact Pe|left; now apply Rinv_0_lt_compat]|]. apply Rmult_le_reg_r with s; [exact Hs|]. replace (e / s * s) with e by (field; lra). nra. }
  assert (D : Rabs (sqrt (b2r k) - sqrt K) <= e / s).
  { apply Rmult_le_reg_r with s; [exact Hs|]. replace (e / s * s) with e by (field; lra). apply Rle_trans with (Rabs (sqrt (b2r k) - sqrt K) * (sqrt (b2r k) + sqrt K)); [apply Rmult_le_compat_l; [apply Rabs_pos|lra]|].
    rewrite <- (Rabs_pos_eq (sqrt (b2r k) + sqrt K)) by lra. rewrite <- Rabs_mult. replace ((sqrt (b2r k) - sqrt K) * (sqrt (b2r k) + sqrt K)) with (sqrt (b2r k) * sqrt (b2r k) - sqrt K * sqrt K) by ring. rewrite Q1, Q2. apply Rabs_le. lra. }
  destruct (finite_sqrt k F Pk) as [Fs (eps & Heps & Es)]. split; [exact Fs|]. rewrite Es. rewrite u32_u in Heps. assert (SK1 : sqrt K <= 1) by (rewrite <- sqrt_1; now apply sqrt_le_1_alt).
  assert (B : Rabs (sqrt (b2r k)) <= 125/100) by (rewrite Rabs_pos_eq by exact PS; apply Rabs_le_inv in D; lra). pose proof tiny_small as Ht.
  replace (sqrt (b2r k) * (1 + eps) - sqrt K) with (sqrt (b2r k) * eps + (sqrt (b2r k) - sqrt K)) by ring. eapply Rle_trans; [apply Rabs_triang|]. rewrite Rabs_mult.
  assert (Rabs (sqrt (b2r k)) * Rabs eps <= 125/100 * u) by (apply Rmult_le_compat; trivial; apply Rabs_pos). lra.
Qed.
Definition bound (h d s : R) : R := ((9 * (h * h) + 7 * h + 2) * d + (14 * (h * h) + 11 * h + 8) * u) / s.
Lemma part_near eta c C d s K a b A B : 0 <= d <= / 1000 -> between 0 4 eta -> ab (E1 d) c C -> -1 <= C <= 1 -> K = 1 - b2r eta * b2r eta * (1 - C * C) ->
  0 < s -> s * s <= K -> 4 * margin (b2r eta) d <= s * s -> ab d a A -> ab d b B -> -1 <= A <= 1 -> -1 <= B <= 1 ->
  ab (bound (b2r eta) d s) (part eta (weight eta c (disc eta c)) a b) (b2r eta * A - (b2r eta * C + sqrt K) * B).
Proof.
  intros Hd He Hc HC EK Hs HK HM Ha Hb HA HB. pose proof u_val as Hu. pose proof tiny_small as Ht. pose proof (E1_small d Hd) as ES. pose proof (disc_near eta c C d Hd He Hc HC) as KD. rewrite <- EK in KD. destruct He as [Fe He]. set (h := b2r eta) in *. 
  assert (H16 : 0 <= h * h <= 16) by nra. assert (C2 : 0 <= 1 - C * C <= 1) by nra. assert (K1 : K <= 1) by (rewrite EK; assert (0 <= h * h * (1 - C * C)) by (apply Rmult_le_pos; lra); lra). assert (S1 : s <= 1) by nra.
  set (mg := margin h d) in *. assert (MG : 0 <= mg) by (unfold mg, margin; change ulp_half with u; assert (0 <= h * h * d) by (apply Rmult_le_pos; lra); assert (0 <= h * h * u) by (apply Rmult_le_pos; lra); lra).
  pose proof (sqrt_near _ _ _ s KD Hs HK ltac:(lra) K1) as KR. set (es := mg * (99/100) / s) in *.
  assert (ESs : 0 <= es <= / 4). { unfold es. split; [apply Rmult_le_pos; [lra|left; now apply Rinv_0_lt_compat]|]. apply Rmult_le_reg_r with s; [exact Hs|]. replace (mg * (99/100) / s * s) with (mg * (99/100)) by (field; lra). nra. }
  set (er := es + 125/100 * u + tiny) in *. assert (ER : 0 <= er <= 26/100) by (unfold er; lra). pose proof (sqrt_pos K) as PK. assert (SK1 : sqrt K <= 1) by (rewrite <- sqrt_1; now apply sqrt_le_1_alt).
  set (e1 := E1 d) in *. pose proof (abs1 C HC) as AC. pose proof (abs1 A HA) as AA. pose proof (abs1 B HB) as AB'. pose proof (Rabs_pos C) as PC. pose proof (Rabs_pos A) as PA. pose proof (Rabs_pos B) as PB.
  assert (HR : Rabs h = h) by (apply Rabs_pos_eq; lra). assert (HE1 : 0 <= h * e1 <= 4 * e1) by (split; [apply Rmult_le_pos; lra|apply Rmult_le_compat_r; lra]). assert (HU : 0 <= h * u <= 4 * u) by (split; [apply Rmult_le_pos; lra|apply Rmult_le_compat_r; lra]). assert (HD : 0 <= h * d <= 4 * d) by (split; [apply Rmult_le_pos; lra|apply Rmult_le_compat_r; lra]).
  assert (HCa : Rabs (h * C) <= h) by (rewrite Rabs_mult, HR; rewrite <- (Rmult_1_r h) at 2; apply Rmult_le_compat_l; lra). assert (HAa : Rabs (h * A) <= h) by (rewrite Rabs_mult, HR; rewrite <- (Rmult_1_r h) at 2; apply Rmult_le_compat_l; lra).
  assert (KF : ab (h * e1 + u * (h + 2/100) + tiny) (Bmult mode_NE eta c) (h * C)). { apply (ab_mul 0 e1 eta c h C _ _ (ab_exact _ Fe) Hc); try lra; rewrite HR; lra. }
  set (ef := h * e1 + u * (h + 2/100) + tiny) in *. assert (EF : 0 <= ef <= 2/100) by (unfold ef; lra).
  assert (KW : ab (ef + er + u * (h + 13/10) + tiny) (weight eta c (disc eta c)) (h * C + sqrt K)). { apply (ab_add ef er _ _ (h * C) (sqrt K) _ KF KR); try lra; [rewrite Rabs_pos_eq by exact PK; lra|]. pose proof (Rabs_triang (h * C) (sqrt K)) as T. rewrite (Rabs_pos_eq (sqrt K)) in T by exact PK. lra. }
  set (W := h * C + sqrt K) in *. set (ew := ef + er + u * (h + 13/10) + tiny) in *. assert (EW : 0 <= ew <= 29/100) by (unfold ew; lra).
  assert (WA : Rabs W <= h + 1) by (unfold W; pose proof (Rabs_triang (h * C) (sqrt K)) as T; rewrite (Rabs_pos_eq (sqrt K)) in T by exact PK; lra). pose proof (Rabs_pos W) as PW.
  assert (KA : ab (h * d + u * (h + / 100) + tiny) (Bmult mode_NE eta a) (h * A)). { apply (ab_mul 0 d eta a h A _ _ (ab_exact _ Fe) Ha); try lra; rewrite HR; lra. }
  set (ea := h * d + u * (h + / 100) + tiny) in *. assert (EA : 0 <= ea <= / 100) by (unfold ea; lra).
  assert (M1 : ew * Rabs B + d * Rabs W + ew * d <= 1001/1000 * ew + d * (h + 1)). { assert (ew * Rabs B <= ew * 1) by (apply Rmult_le_compat_l; lra). assert (d * Rabs W <= d * (h + 1)) by (apply Rmult_le_compat_l; lra). assert (ew * d <= ew * (/ 1000)) by (apply Rmult_le_compat_l; lra). lra. }
  assert (WB : Rabs (W * B) <= h + 1) by (rewrite Rabs_mult; assert (Rabs W * Rabs B <= (h + 1) * 1) by (apply Rmult_le_compat; lra); lra).
  assert (KB : ab (1001/1000 * ew + d * (h + 1) + u * (h + 14/10) + tiny) (Bmult mode_NE (weight eta c (disc eta c)) b) (W * B)). { apply (ab_mul ew d _ _ W B _ _ KW Hb); try lra. }
  set (eb := 1001/1000 * ew + d * (h + 1) + u * (h + 14/10) + tiny) in *. assert (EB : 0 <= eb <= 31/100) by (unfold eb; lra).
  assert (TR : Rabs (h * A - W * B) <= 2 * h + 1) by (pose proof (Rabs_triang (h * A) (- (W * B))) as T; rewrite Rabs_Ropp in T; unfold Rminus; lra).
  unfold part. eapply ab_weak; [|apply (ab_sub ea eb _ _ (h * A) (W * B) (2 * h + 14/10) KA KB); lra].
  assert (FB : bound h d s = ((9 * (h * h) * d + 14 * (h * h) * u + 2 * u) * / s) + ((7 * h + 2) * d + (11 * h + 6) * u) * / s) by (unfold bound, Rdiv; ring). rewrite FB.
  assert (I1 : 1 <= / s) by (rewrite <- Rinv_1; apply Rinv_le_contravar; lra). assert (MS : es = mg * / s * (99/100)) by (unfold es, Rdiv; ring). assert (MG2 : mg * / s = (9 * (h * h) * d + 14 * (h * h) * u + 2 * u) * / s) by (unfold mg, margin; change ulp_half with u; ring). rewrite <- MG2. 
  assert (LW : (7 * h + 2) * d + (11 * h + 6) * u <= ((7 * h + 2) * d + (11 * h + 6) * u) * / s). { rewrite <- (Rmult_1_r ((7 * h + 2) * d + (11 * h + 6) * u)) at 1. apply Rmult_le_compat_l; [|exact I1]. lra. }
  assert (PM : 0 <= mg * / s) by (apply Rmult_le_pos; [exact MG|lra]). 
  eapply Rle_trans; [|apply Rplus_le_compat_l; exact LW]. unfold ea, eb, ew, ef, er. rewrite MS. unfold e1, E1. lra.
Qed.
(** ** Whole vectors *)
Lemma close_zip (g : f32 -> f32 -> f32) (G : R -> R -> R) d e : (forall a b A B, ab d a A -> ab d b B -> -1 <= A <= 1 -> -1 <= B <= 1 -> ab e (g a b) (G A B)) ->
  forall i I n N, all_close d i I -> all_close d n N -> Forall (fun x => -1 <= x <= 1) I -> Forall (fun x => -1 <= x <= 1) N -> all_close e (zip g i n) (zip G I N).
Proof.
  intros H i I n N HI. revert n N. induction HI as [|a A i I Ha HI IH]; intros n N HN BI BN; [constructor|]. destruct HN as [|b B n N Hb HN]; [constructor|].
  inversion BI; subst. inversion BN; subst. cbn. constructor; [now apply H|]. now apply IH.
Qed.
Lemma unit_entries X : norm X = 1 -> Forall (fun x => -1 <= x <= 1) X.
Proof.
  intros H. assert (Q : ip X X <= 1) by (rewrite <- norm_sq, H; lra). clear H. induction X as [|x X IH]; constructor; unfold ip in *; cbn in Q; fold (ip X X) in Q; pose proof (ip_pos X) as P; pose proof (Rle_0_sqr x) as P2; unfold Rsqr in P2; [nra|]. apply IH. unfold ip in *. lra.
Qed.
Lemma snell_zip h I N : length I = length N -> norm I = 1 -> norm N = 1 -> let C := ip N I in let K := 1 - h * h * (1 - C * C) in 1 - h * h * sine2 I N = K /\ snell h I N = zip (fun a b => h * a - (h * C + sqrt K) * b) I N /\ mirrored I N = zip (fun a b => a - 2 * C * b) I N.
Proof.
  intros E HI HN C K. pose proof (sine2_unit I N E HI HN) as S. rewrite (ip_comm' I N) in S. fold C in S. split; [now rewrite S|]. unfold snell, mirrored, tangential. rewrite S. fold K. rewrite (ip_comm' I N). fold C. clearbody C K. clear S HI HN. split; (revert N E; induction I as [|a I IH]; intros [|b N] E; try discriminate; [reflexivity|]; cbn; rewrite IH by (cbn in E; lia); f_equal; ring).
Qed.
Lemma unit_cos N I : length N = length I -> norm N = 1 -> norm I = 1 -> -1 <= ip N I <= 1.
Proof. intros E HN HI. pose proof (ip_cs N I E) as C. rewrite HN, HI in C. apply Rabs_le_inv in C. lra. Qed.
Lemma is_neg (k : f32) K e : ab e k K -> K < - e -> Bltb k (B754_zero false) = true.
Proof. intros [F H] N. rewrite bltb_b2r by (trivial; reflexivity). apply Rlt_bool_true. change (b2r (B754_zero false)) with 0. apply Rabs_le_inv in H. lra. Qed.
Lemma not_neg (k : f32) K e : ab e k K -> e <= K -> Bltb k (B754_zero false) = false.
Proof. intros [F H] N. rewrite bltb_b2r by (trivial; reflexivity). apply Rlt_bool_false. change (b2r (B754_zero false)) with 0. apply Rabs_le_inv in H. lra. Qed.
Lemma close_len d c X : all_close d c X -> length X = length c.
Proof. induction 1; [reflexivity|]. cbn. congruence. Qed.
Definition dot_fine {V} (comps : V -> list f32) (dot : V -> V -> f32) : Prop :=
  forall i n I N d, near_units comps d i n I N -> length I = length N /\ ab (E1 d) (dot n i) (ip N I).
Lemma refract_of {V} (comps : V -> list f32) dot (refr : V -> V -> f32 -> V) : dot_fine comps dot ->
  (forall i n eta, Bltb (disc eta (dot n i)) (B754_zero false) = true -> Forall (fun x => x = B754_zero false) (comps (refr i n eta))) ->
  (forall i n eta, Bltb (disc eta (dot n i)) (B754_zero false) = false -> comps (refr i n eta) = zip (part eta (weight eta (dot n i) (disc eta (dot n i)))) (comps i) (comps n)) ->
  refract_accurate comps refr.
Proof.
  intros HD HT HF i n I N eta d HU He h K. destruct (HD _ _ _ _ _ HU) as [E Hc]. pose proof HU as (HI & HN & Hd & Ci & Cn). pose proof (unit_cos N I (eq_sym E) HN HI) as HC.
  destruct (snell_zip h I N E HI HN) as (EK & ES & _). cbv zeta in EK, ES. fold K in EK. pose proof (disc_near eta _ _ d Hd He Hc HC) as KD. fold h in KD. rewrite <- EK in KD. pose proof (ab_pos _ _ _ KD) as PM. split.
  - intros s Hs HK HM. rewrite HF; [|apply (not_neg _ _ _ KD); lra]. rewrite ES. rewrite <- EK. apply close_zip with d; trivial; try now apply unit_entries.
    intros a b A B Ha Hb HA HB. now apply part_near.
  - intros HK. apply HT, (is_neg _ _ _ KD). lra.
Qed.
Lemma reflect_part c C d a b A B : 0 <= d <= / 1000 -> ab (E1 d) c C -> -1 <= C <= 1 -> ab d a A -> ab d b B -> -1 <= A <= 1 -> -1 <= B <= 1 ->
  ab (12 * d + 16 * u) (Bminus mode_NE a (Bmult mode_NE (Bmult mode_NE (f32_lit 2 0) c) b)) (A - 2 * C * B).
Proof.
  intros Hd Hc HC Ha Hb HA HB. pose proof u_val as Hu. pose proof tiny_small as Ht. pose proof (E1_small d Hd) as ES. pose proof (abs1 C HC) as AC. pose proof (abs1 A HA) as AA. pose proof (abs1 B HB) as AB'. pose proof (Rabs_pos C) as PC. pose proof (Rabs_pos A) as PA. pose proof (Rabs_pos B) as PB.
  set (e1 := E1 d) in *. assert (R2 : Rabs 2 = 2) by (apply Rabs_pos_eq; lra). assert (A2 : Rabs (2 * C) <= 2) by (rewrite Rabs_mult, R2; lra). pose proof (Rabs_pos (2 * C)) as P2.
  assert (K1 : ab (2 * e1 + u * (201/100) + tiny) (Bmult mode_NE (f32_lit 2 0) c) (2 * C)). { apply (ab_mul 0 e1 _ _ 2 C _ _ lit2 Hc); rewrite ?R2; try lra. }
  set (e2 := 2 * e1 + u * (201/100) + tiny) in *. assert (E2 : 0 <= e2 <= / 100) by (unfold e2; lra).
  assert (M1 : e2 * Rabs B + d * Rabs (2 * C) + e2 * d <= 1001/1000 * e2 + 2 * d). { assert (e2 * Rabs B <= e2 * 1) by (apply Rmult_le_compat_l; lra). assert (d * Rabs (2 * C) <= d * 2) by (apply Rmult_le_compat_l; lra). assert (e2 * d <= e2 * (/ 1000)) by (apply Rmult_le_compat_l; lra). lra. }
  assert (B2 : Rabs (2 * C * B) <= 2) by (rewrite (Rabs_mult (2 * C)); assert (Rabs (2 * C) * Rabs B <= 2 * 1) by (apply Rmult_le_compat; lra); lra).
  assert (K2 : ab (1001/1000 * e2 + 2 * d + u * (203/100) + tiny) (Bmult mode_NE (Bmult mode_NE (f32_lit 2 0) c) b) (2 * C * B)). { apply (ab_mul e2 d _ _ (2 * C) B _ _ K1 Hb); try lra. }
  set (e3 := 1001/1000 * e2 + 2 * d + u * (203/100) + tiny) in *. assert (E3 : 0 <= e3 <= 2/100) by (unfold e3; lra).
  assert (TR : Rabs (A - 2 * C * B) <= 3) by (pose proof (Rabs_triang A (- (2 * C * B))) as T; rewrite Rabs_Ropp in T; unfold Rminus; lra).
  eapply ab_weak; [|apply (ab_sub d e3 _ _ A (2 * C * B) (303/100) Ha K2); lra]. unfold e3, e2, e1, E1. lra.
Qed.
Lemma reflect_of {V} (comps : V -> list f32) dot (refl : V -> V -> V) : dot_fine comps dot ->
  (forall i n, comps (refl i n) = zip (fun a b => Bminus mode_NE a (Bmult mode_NE (Bmult mode_NE (f32_lit 2 0) (dot n i)) b)) (comps i) (comps n)) -> reflect_accurate comps refl.
Proof.
  intros HD HF i n I N d HU. destruct (HD _ _ _ _ _ HU) as [E Hc]. pose proof HU as (HI & HN & Hd & Ci & Cn). pose proof (unit_cos N I (eq_sym E) HN HI) as HC.
  destruct (snell_zip 0 I N E HI HN) as (_ & _ & ES). cbv zeta in ES. rewrite HF, ES. apply close_zip with d; trivial; try now apply unit_entries.
  intros a b A B Ha Hb HA HB. now apply reflect_part.
Qed.
Lemma facing_of {V} (comps : V -> list f32) dot neg (face : V -> V -> V -> V) : dot_fine comps dot ->
  (forall n i r, face n i r = if Bltb (dot r i) (B754_zero false) then n else neg n) -> facing_accurate comps neg face.
Proof.
  intros HD HF n i r I N d HU. destruct (HD _ _ _ _ _ HU) as [E Hc]. pose proof u_val as Hu. destruct HU as (_ & _ & Hd & _). unfold E1 in Hc. change ulp_half with u. rewrite HF. split; intros H.
  - rewrite (is_neg _ _ _ Hc) by lra. reflexivity.
  - rewrite (not_neg _ _ _ Hc) by lra. reflexivity.
Qed.
Lemma dots L : dot_fine l2 (dot2 (F32 L)) /\ dot_fine l3 (dot3 (F32 L)) /\ dot_fine l4 (dot4 (F32 L)).
Proof.
  destruct (C64_dot_pf L) as (A2 & A3 & A4 & _). destruct (C71_products_pf L) as (B2 & B3 & B4 & _). split; [|split]; unfold dot_fine.
  - apply (dot_unit l2 (dot2 (F32 L)) 2); [lia|exact A2|exact B2|reflexivity].
  - apply (dot_unit l3 (dot3 (F32 L)) 3); [lia|exact A3| |reflexivity]. intros a b. replace (INR 3) with 3 by (cbn; ring). apply B3.
  - apply (dot_unit l4 (dot4 (F32 L)) 4); [lia|exact A4| |reflexivity]. intros a b. replace (INR 4) with 4 by (cbn; ring). apply B4.
Qed.
(** For incident and normal vectors within d of unit vectors, reflect is within 12d + 16 half-ulps of 1 of the mirror image in each component. *)
Lemma C93_reflect_pf : forall L : Libm,
  reflect_accurate l2 (reflect2 (F32 L)) /\ reflect_accurate l3 (reflect3 (F32 L)) /\ reflect_accurate l4 (reflect4 (F32 L)).
Proof.
  intros L. destruct (dots L) as (D2 & D3 & D4). split; [|split]; [apply (reflect_of l2 _ _ D2)|apply (reflect_of l3 _ _ D3)|apply (reflect_of l4 _ _ D4)]; intros [] []; reflexivity.
Qed.
Lemma zero_lit : f32_lit 0 0 = B754_zero false. Proof. reflexivity. Qed.
Lemma refract_shape2 L : forall i n eta, refract2 (F32 L) i n eta = if Bltb (disc eta (dot2 (F32 L) n i)) (f32_lit 0 0) then V2 (f32_lit 0 0) (f32_lit 0 0) else let w := weight eta (dot2 (F32 L) n i) (disc eta (dot2 (F32 L) n i)) in V2 (part eta w (x2 i) (x2 n)) (part eta w (y2 i) (y2 n)).
Proof. intros [] [] eta. unfold disc, part, weight. fs. reflexivity. Qed.
Lemma refract_shape3 L : forall i n eta, refract3 (F32 L) i n eta = if Bltb (disc eta (dot3 (F32 L) n i)) (f32_lit 0 0) then V3 (f32_lit 0 0) (f32_lit 0 0) (f32_lit 0 0) else let w := weight eta (dot3 (F32 L) n i) (disc eta (dot3 (F32 L) n i)) in V3 (part eta w (x3 i) (x3 n)) (part eta w (y3 i) (y3 n)) (part eta w (z3 i) (z3 n)).
Proof. intros [] [] eta. unfold disc, part, weight. fs. reflexivity. Qed.
Lemma refract_shape4 L : forall i n eta, refract4 (F32 L) i n eta = if Bltb (disc eta (dot4 (F32 L) n i)) (f32_lit 0 0) then V4 (f32_lit 0 0) (f32_lit 0 0) (f32_lit 0 0) (f32_lit 0 0) else let w := weight eta (dot4 (F32 L) n i) (disc eta (dot4 (F32 L) n i)) in V4 (part eta w (x4 i) (x4 n)) (part eta w (y4 i) (y4 n)) (part eta w (z4 i) (z4 n)) (part eta w (w4 i) (w4 n)).
Proof. intros [] [] eta. unfold disc, part, weight. fs. reflexivity. Qed.
(** For eta in [0, 4] the refracted vector is within ((9 eta^2 + 7 eta + 2) d + (14 eta^2 + 11 eta + 8) half-ulps of 1)/s of the direction Snell's law
    gives, where s > 0 is at most the cosine of the angle of refraction; beyond the angle of total reflection, up to a small margin, the result is
    exactly the zero vector. *)
Lemma C93_refract_pf : forall L : Libm,
  refract_accurate l2 (refract2 (F32 L)) /\ refract_accurate l3 (refract3 (F32 L)) /\ refract_accurate l4 (refract4 (F32 L)).
Proof.
  intros L. destruct (dots L) as (D2 & D3 & D4).
  split; [|split].
  - apply (refract_of l2 _ _ D2); intros i n eta H; rewrite refract_shape2, zero_lit, H; [repeat constructor|reflexivity].
  - apply (refract_of l3 _ _ D3); intros i n eta H; rewrite refract_shape3, zero_lit, H; [repeat constructor|reflexivity].
  - apply (refract_of l4 _ _ D4); intros i n eta H; rewrite refract_shape4, zero_lit, H; [repeat constructor|reflexivity].
Qed.
(** faceforward picks the right sign whenever the cosine of the angle between incident and reference vector exceeds 5d + 5 half-ulps of 1. *)
Lemma C93_faceforward_pf : forall L : Libm,
  facing_accurate l2 (vec2_neg (F32 L)) (faceforward2 (F32 L)) /\ facing_accurate l3 (vec3_neg (F32 L)) (faceforward3 (F32 L)) /\
  facing_accurate l4 (vec4_neg (F32 L)) (faceforward4 (F32 L)).
Proof.
  intros L. destruct (dots L) as (D2 & D3 & D4). split; [|split]; [apply (facing_of l2 _ _ _ D2)|apply (facing_of l3 _ _ _ D3)|apply (facing_of l4 _ _ _ D4)]; reflexivity.
Qed.
(*PROPS
(** light at a slope of 3:4 falling on a horizontal surface: refracted for eta = 1/2, reflected totally for eta = 2 *)
Example C93_case : let i := V2 (f32_lit 6 (-1)) (f32_lit (-8) (-1)) in let n := V2 (f32_lit 0 0) (f32_lit 1 0) in
  let I := [6/10; - (8/10)] in let N := [0; 1] in
  near_units l2 ulp_half i n I N /\ sine2 I N = 36/100 /\ 9/10 * (9/10) <= 1 - / 2 * / 2 * sine2 I N /\ 4 * margin (/ 2) ulp_half <= 9/10 * (9/10) /\
  1 - 2 * 2 * sine2 I N < - margin 2 ulp_half.
Proof.
  cbv zeta. assert (V0 : b2r (f32_lit 0 0) = 0) by (vm_compute; lra). assert (V1 : b2r (f32_lit 1 0) = 1) by (vm_compute; lra).
  assert (V6 : b2r (f32_lit 6 (-1)) = 10066330 / 16777216) by (unfold f32_lit; vm_compute; lra). assert (V8 : b2r (f32_lit (-8) (-1)) = - 13421773 / 16777216) by (unfold f32_lit; vm_compute; lra).
  assert (UV : ulp_half = / 16777216) by reflexivity.
  assert (S : sine2 [6/10; - (8/10)] [0; 1] = 36/100) by (unfold sine2, tangential, ip; cbn; lra). rewrite S.
  split; [|split; [reflexivity|unfold margin; rewrite UV; lra]].
  unfold near_units. split; [unfold norm, ip; cbn; replace (_ + _) with (1 * 1) by lra; apply sqrt_square; lra|]. split; [unfold norm, ip; cbn; replace (_ + _) with (1 * 1) by lra; apply sqrt_square; lra|]. split; [lra|]. split; unfold all_close, l2; cbn [x2 y2].
  - apply Forall2_cons; [split; [reflexivity|rewrite V6, UV; apply Rabs_le; lra]|]. apply Forall2_cons; [split; [reflexivity|rewrite V8, UV; apply Rabs_le; lra]|]. apply Forall2_nil.
  - apply Forall2_cons; [split; [reflexivity|rewrite V0, UV; apply Rabs_le; lra]|]. apply Forall2_cons; [split; [reflexivity|rewrite V1, UV; apply Rabs_le; lra]|]. apply Forall2_nil.
Qed.
PROPS*)
