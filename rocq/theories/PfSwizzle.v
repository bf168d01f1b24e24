(** * Proofs: swizzle members *)
From Coq Require Import String Ascii List Lia Bool Arith.
From Verif Require Import Types Spec SpecSwizzle ModelSwizzle.
Import ListNotations.
(*HEADER END*)

(** All index lists of length [k] over [0 .. n-1]. *)
Fixpoint words (n k : nat) : list (list nat) :=
  match k with
  | O => [[]]
  | S k => flat_map (fun w => map (fun i => i :: w) (seq 0 n)) (words n k)
  end.

Lemma words_complete n : forall k idx, length idx = k -> Forall (fun i => i < n) idx -> In idx (words n k).
Proof.
  induction k as [|k IH]; intros idx Hl Hf.
  - destruct idx; [now left|discriminate].
  - destruct idx as [|i w]; [discriminate|]. cbn in Hl. injection Hl as Hl.
    inversion_clear Hf. cbn. apply in_flat_map. exists w. split; [now apply IH|].
    apply in_map_iff. exists i. split; [reflexivity|]. apply in_seq. lia.
Qed.

Definition list_nat_eqb (a b : list nat) : bool := if list_eq_dec Nat.eq_dec a b then true else false.
Lemma list_nat_eqb_eq a b : list_nat_eqb a b = true -> a = b.
Proof. unfold list_nat_eqb; destruct (list_eq_dec Nat.eq_dec a b); [trivial|discriminate]. Qed.

(** Every word spelled by indices below [n] of a length in [lens] is declared with
    exactly these indices. *)
Definition complete_check (tbl : list decl) (n : nat) (lens : list nat) : bool :=
  forallb (fun alpha => forallb (fun k => forallb (fun idx =>
    match lookup tbl (spell alpha idx) with
    | Some d => list_nat_eqb (d_indices d) idx && Nat.eqb (d_result d) k
    | None => false
    end) (words n k)) lens) alphabets.

Lemma complete_sound tbl n lens : complete_check tbl n lens = true ->
  forall alpha idx, In alpha alphabets -> In (length idx) lens -> Forall (fun i => i < n) idx ->
  exists d, lookup tbl (spell alpha idx) = Some d /\ d_indices d = idx /\ d_result d = length idx.
Proof.
  intros H alpha idx Ha Hl Hi.
  unfold complete_check in H. rewrite forallb_forall in H. specialize (H _ Ha).
  rewrite forallb_forall in H. specialize (H _ Hl).
  rewrite forallb_forall in H. specialize (H _ (words_complete n _ idx eq_refl Hi)).
  destruct (lookup tbl (spell alpha idx)) as [d|]; [|discriminate].
  apply andb_true_iff in H as [H1 H2]. exists d.
  split; [reflexivity|]. split; [now apply list_nat_eqb_eq|now apply Nat.eqb_eq].
Qed.

(** Every declared name is spelled by its indices in one alphabet. *)
Definition names_check (tbl : list decl) (n : nat) (lens : list nat) : bool :=
  forallb (fun d =>
    Nat.eqb (d_result d) (length (d_indices d)) &&
    existsb (Nat.eqb (length (d_indices d))) lens &&
    forallb (fun i => Nat.ltb i n) (d_indices d) &&
    forallb (fun name => existsb (fun alpha => String.eqb name (spell alpha (d_indices d))) alphabets)
      (d_names d)) tbl.

Lemma lookup_In tbl name d : lookup tbl name = Some d -> In d tbl /\ In name (d_names d).
Proof.
  induction tbl as [|e t IH]; cbn; [discriminate|].
  destruct (existsb (String.eqb name) (d_names e)) eqn:E.
  - intros H; injection H as <-. split; [now left|].
    apply existsb_exists in E as [s [Hs E]]. apply String.eqb_eq in E. now subst.
  - intros H. destruct (IH H). split; [now right|assumption].
Qed.

Lemma names_sound tbl n lens : names_check tbl n lens = true ->
  forall name d, lookup tbl name = Some d ->
  d_result d = length (d_indices d) /\ In (length (d_indices d)) lens /\
  Forall (fun i => i < n) (d_indices d) /\
  exists alpha, In alpha alphabets /\ name = spell alpha (d_indices d).
Proof.
  intros H name d Hd. apply lookup_In in Hd as [Hd Hn].
  unfold names_check in H. rewrite forallb_forall in H. specialize (H _ Hd).
  rewrite !andb_true_iff in H. destruct H as [[[H1 H2] H3] H4].
  repeat split.
  - now apply Nat.eqb_eq.
  - apply existsb_exists in H2 as [k [Hk E]]. apply Nat.eqb_eq in E. now rewrite E.
  - rewrite forallb_forall in H3. apply Forall_forall. intros i Hi. apply Nat.ltb_lt. now apply H3.
  - rewrite forallb_forall in H4. specialize (H4 _ Hn).
    apply existsb_exists in H4 as [alpha [Ha E]]. apply String.eqb_eq in E. eauto.
Qed.

Lemma spell_length alpha idx : String.length (spell alpha idx) = length idx.
Proof. induction idx; cbn; congruence. Qed.

Lemma position_nth alpha i : In alpha alphabets -> i < 4 -> position (nth i alpha " "%char) = Some i.
Proof.
  intros [<-|[<-|[<-|[]]]] Hi; do 4 (destruct i; [reflexivity|]); lia.
Qed.

Lemma spell_get alpha : In alpha alphabets -> forall idx i c, Forall (fun i => i < 4) idx ->
  String.get i (spell alpha idx) = Some c -> exists j, nth_error idx i = Some j /\ position c = Some j.
Proof.
  intros Ha; induction idx as [|k idx IH]; intros i c Hf; cbn; [destruct i; discriminate|].
  inversion_clear Hf. destruct i as [|i]; cbn.
  - intros E; injection E as <-. exists k. split; [reflexivity|]. now apply position_nth.
  - intros E. eapply IH; eauto.
Qed.

Lemma spell_inj alpha alpha' idx idx' : In alpha alphabets -> In alpha' alphabets ->
  Forall (fun i => i < 4) idx -> Forall (fun i => i < 4) idx' ->
  spell alpha idx = spell alpha' idx' -> idx = idx'.
Proof.
  intros Ha Ha'. revert idx'; induction idx as [|i t IH]; intros [|i' t'] H H' E; try discriminate; [reflexivity|].
  cbn in E. inversion_clear H. inversion_clear H'. injection E as E1 E2. f_equal; [|now apply IH].
  pose proof (position_nth alpha i Ha H0) as P. pose proof (position_nth alpha' i' Ha' H) as P'.
  rewrite E1 in P. congruence.
Qed.

(** The whole contract of one table of swizzle members. *)
Lemma table_ok {A} tbl n lens (rd : nat -> A) (comps : list A) : n <= 4 ->
  complete_check tbl n lens = true -> names_check tbl n lens = true ->
  (forall i, i < n -> nth_error comps i = Some (rd i)) ->
  (forall name, (exists d, lookup tbl name = Some d) <->
     exists alpha idx, In alpha alphabets /\ In (length idx) lens /\ Forall (fun i => i < n) idx /\
       name = spell alpha idx) /\
  (forall name d, lookup tbl name = Some d ->
     d_result d = String.length name /\ length (map rd (d_indices d)) = String.length name /\
     forall i c, String.get i name = Some c ->
       exists j, position c = Some j /\ j < n /\ nth_error (map rd (d_indices d)) i = nth_error comps j).
Proof.
  intros Hn Hc Hs Hr. split.
  - intros name; split.
    + intros [d Hd]. destruct (names_sound _ _ _ Hs _ _ Hd) as [_ [Hl [Hf [alpha [Ha E]]]]]. eauto 6.
    + intros [alpha [idx [Ha [Hl [Hf ->]]]]].
      destruct (complete_sound _ _ _ Hc _ _ Ha Hl Hf) as [d [H _]]. eauto.
  - intros name d Hd. destruct (names_sound _ _ _ Hs _ _ Hd) as [Hres [_ [Hf [alpha [Ha ->]]]]].
    rewrite map_length, spell_length. repeat split; trivial.
    intros i c Hg.
    assert (Hf4 : Forall (fun i => i < 4) (d_indices d)) by (eapply Forall_impl; [|exact Hf]; cbn; lia).
    destruct (spell_get alpha Ha _ _ _ Hf4 Hg) as [j [Hj Hp]].
    assert (Hjn : j < n) by (eapply Forall_forall in Hf; [exact Hf|eapply nth_error_In; eauto]).
    exists j. repeat split; trivial. rewrite (map_nth_error _ _ _ Hj). symmetry. now apply Hr.
Qed.

(** C04, vec2: the declared swizzle names are exactly the words of length
    2 over the first 2 letters of one alphabet, and the value read through one
    has in position [i] the component its [i]-th letter names. *)
Lemma C04_vec2_swizzles_pf : forall (A : Type) (v : vec2 A),
  (forall name, (exists d, lookup vec2_shuffles name = Some d) <->
     exists alpha idx, In alpha alphabets /\ In (length idx) [2] /\ Forall (fun i => i < 2) idx /\
       name = spell alpha idx) /\
  (forall name d, lookup vec2_shuffles name = Some d ->
     d_result d = String.length name /\ length (shuffle2 d v) = String.length name /\
     forall i c, String.get i name = Some c ->
       exists j, position c = Some j /\ j < 2 /\ nth_error (shuffle2 d v) i = nth_error (l2 v) j).
Proof.
  intros A v. apply (table_ok vec2_shuffles 2 [2] (el2 v) (l2 v)).
  - lia.
  - vm_compute; reflexivity.
  - vm_compute; reflexivity.
  - intros i Hi. destruct v. do 2 (destruct i as [|i]; [reflexivity|]). lia.
Qed.

(** C03, vec2: the component members are x/r/s, y/g/t and nothing else, and each
    reads the component its letter names. *)
Lemma C03_vec2_members_pf : forall (A : Type) (v : vec2 A),
  (forall name, (exists d, lookup vec2_scalars name = Some d) <->
     exists alpha idx, In alpha alphabets /\ In (length idx) [1] /\ Forall (fun i => i < 2) idx /\
       name = spell alpha idx) /\
  (forall name d, lookup vec2_scalars name = Some d ->
     d_result d = String.length name /\ length (shuffle2 d v) = String.length name /\
     forall i c, String.get i name = Some c ->
       exists j, position c = Some j /\ j < 2 /\ nth_error (shuffle2 d v) i = nth_error (l2 v) j).
Proof.
  intros A v. apply (table_ok vec2_scalars 2 [1] (el2 v) (l2 v)).
  - lia.
  - vm_compute; reflexivity.
  - vm_compute; reflexivity.
  - intros i Hi. destruct v. do 2 (destruct i as [|i]; [reflexivity|]). lia.
Qed.

(** C04, vec3: the declared swizzle names are exactly the words of length
    2 or 3 over the first 3 letters of one alphabet, and the value read through one
    has in position [i] the component its [i]-th letter names. *)
Lemma C04_vec3_swizzles_pf : forall (A : Type) (v : vec3 A),
  (forall name, (exists d, lookup vec3_shuffles name = Some d) <->
     exists alpha idx, In alpha alphabets /\ In (length idx) [2; 3] /\ Forall (fun i => i < 3) idx /\
       name = spell alpha idx) /\
  (forall name d, lookup vec3_shuffles name = Some d ->
     d_result d = String.length name /\ length (shuffle3 d v) = String.length name /\
     forall i c, String.get i name = Some c ->
       exists j, position c = Some j /\ j < 3 /\ nth_error (shuffle3 d v) i = nth_error (l3 v) j).
Proof.
  intros A v. apply (table_ok vec3_shuffles 3 [2; 3] (el3 v) (l3 v)).
  - lia.
  - vm_compute; reflexivity.
  - vm_compute; reflexivity.
  - intros i Hi. destruct v. do 3 (destruct i as [|i]; [reflexivity|]). lia.
Qed.

(** C03, vec3: the component members are x/r/s, y/g/t, z/b/p and nothing else, and each
    reads the component its letter names. *)
Lemma C03_vec3_members_pf : forall (A : Type) (v : vec3 A),
  (forall name, (exists d, lookup vec3_scalars name = Some d) <->
     exists alpha idx, In alpha alphabets /\ In (length idx) [1] /\ Forall (fun i => i < 3) idx /\
       name = spell alpha idx) /\
  (forall name d, lookup vec3_scalars name = Some d ->
     d_result d = String.length name /\ length (shuffle3 d v) = String.length name /\
     forall i c, String.get i name = Some c ->
       exists j, position c = Some j /\ j < 3 /\ nth_error (shuffle3 d v) i = nth_error (l3 v) j).
Proof.
  intros A v. apply (table_ok vec3_scalars 3 [1] (el3 v) (l3 v)).
  - lia.
  - vm_compute; reflexivity.
  - vm_compute; reflexivity.
  - intros i Hi. destruct v. do 3 (destruct i as [|i]; [reflexivity|]). lia.
Qed.

(** C04, vec4: the declared swizzle names are exactly the words of length
    2 or 3 or 4 over the first 4 letters of one alphabet, and the value read through one
    has in position [i] the component its [i]-th letter names. *)
Lemma C04_vec4_swizzles_pf : forall (A : Type) (v : vec4 A),
  (forall name, (exists d, lookup vec4_shuffles name = Some d) <->
     exists alpha idx, In alpha alphabets /\ In (length idx) [2; 3; 4] /\ Forall (fun i => i < 4) idx /\
       name = spell alpha idx) /\
  (forall name d, lookup vec4_shuffles name = Some d ->
     d_result d = String.length name /\ length (shuffle4 d v) = String.length name /\
     forall i c, String.get i name = Some c ->
       exists j, position c = Some j /\ j < 4 /\ nth_error (shuffle4 d v) i = nth_error (l4 v) j).
Proof.
  intros A v. apply (table_ok vec4_shuffles 4 [2; 3; 4] (el4 v) (l4 v)).
  - lia.
  - vm_compute; reflexivity.
  - vm_compute; reflexivity.
  - intros i Hi. destruct v. do 4 (destruct i as [|i]; [reflexivity|]). lia.
Qed.

(** C03, vec4: the component members are x/r/s, y/g/t, z/b/p, w/a/q and nothing else, and each
    reads the component its letter names. *)
Lemma C03_vec4_members_pf : forall (A : Type) (v : vec4 A),
  (forall name, (exists d, lookup vec4_scalars name = Some d) <->
     exists alpha idx, In alpha alphabets /\ In (length idx) [1] /\ Forall (fun i => i < 4) idx /\
       name = spell alpha idx) /\
  (forall name d, lookup vec4_scalars name = Some d ->
     d_result d = String.length name /\ length (shuffle4 d v) = String.length name /\
     forall i c, String.get i name = Some c ->
       exists j, position c = Some j /\ j < 4 /\ nth_error (shuffle4 d v) i = nth_error (l4 v) j).
Proof.
  intros A v. apply (table_ok vec4_scalars 4 [1] (el4 v) (l4 v)).
  - lia.
  - vm_compute; reflexivity.
  - vm_compute; reflexivity.
  - intros i Hi. destruct v. do 4 (destruct i as [|i]; [reflexivity|]). lia.
Qed.

(** C04, ivec2: the declared swizzle names are exactly the words of length
    2 over the first 2 letters of one alphabet, and the value read through one
    has in position [i] the component its [i]-th letter names. *)
Lemma C04_ivec2_swizzles_pf : forall (A : Type) (v : vec2 A),
  (forall name, (exists d, lookup ivec2_shuffles name = Some d) <->
     exists alpha idx, In alpha alphabets /\ In (length idx) [2] /\ Forall (fun i => i < 2) idx /\
       name = spell alpha idx) /\
  (forall name d, lookup ivec2_shuffles name = Some d ->
     d_result d = String.length name /\ length (shuffle2 d v) = String.length name /\
     forall i c, String.get i name = Some c ->
       exists j, position c = Some j /\ j < 2 /\ nth_error (shuffle2 d v) i = nth_error (l2 v) j).
Proof.
  intros A v. apply (table_ok ivec2_shuffles 2 [2] (el2 v) (l2 v)).
  - lia.
  - vm_compute; reflexivity.
  - vm_compute; reflexivity.
  - intros i Hi. destruct v. do 2 (destruct i as [|i]; [reflexivity|]). lia.
Qed.

(** C03, ivec2: the component members are x/r/s, y/g/t and nothing else, and each
    reads the component its letter names. *)
Lemma C03_ivec2_members_pf : forall (A : Type) (v : vec2 A),
  (forall name, (exists d, lookup ivec2_scalars name = Some d) <->
     exists alpha idx, In alpha alphabets /\ In (length idx) [1] /\ Forall (fun i => i < 2) idx /\
       name = spell alpha idx) /\
  (forall name d, lookup ivec2_scalars name = Some d ->
     d_result d = String.length name /\ length (shuffle2 d v) = String.length name /\
     forall i c, String.get i name = Some c ->
       exists j, position c = Some j /\ j < 2 /\ nth_error (shuffle2 d v) i = nth_error (l2 v) j).
Proof.
  intros A v. apply (table_ok ivec2_scalars 2 [1] (el2 v) (l2 v)).
  - lia.
  - vm_compute; reflexivity.
  - vm_compute; reflexivity.
  - intros i Hi. destruct v. do 2 (destruct i as [|i]; [reflexivity|]). lia.
Qed.

(** C04, ivec3: the declared swizzle names are exactly the words of length
    2 or 3 over the first 3 letters of one alphabet, and the value read through one
    has in position [i] the component its [i]-th letter names. *)
Lemma C04_ivec3_swizzles_pf : forall (A : Type) (v : vec3 A),
  (forall name, (exists d, lookup ivec3_shuffles name = Some d) <->
     exists alpha idx, In alpha alphabets /\ In (length idx) [2; 3] /\ Forall (fun i => i < 3) idx /\
       name = spell alpha idx) /\
  (forall name d, lookup ivec3_shuffles name = Some d ->
     d_result d = String.length name /\ length (shuffle3 d v) = String.length name /\
     forall i c, String.get i name = Some c ->
       exists j, position c = Some j /\ j < 3 /\ nth_error (shuffle3 d v) i = nth_error (l3 v) j).
Proof.
  intros A v. apply (table_ok ivec3_shuffles 3 [2; 3] (el3 v) (l3 v)).
  - lia.
  - vm_compute; reflexivity.
  - vm_compute; reflexivity.
  - intros i Hi. destruct v. do 3 (destruct i as [|i]; [reflexivity|]). lia.
Qed.

(** C03, ivec3: the component members are x/r/s, y/g/t, z/b/p and nothing else, and each
    reads the component its letter names. *)
Lemma C03_ivec3_members_pf : forall (A : Type) (v : vec3 A),
  (forall name, (exists d, lookup ivec3_scalars name = Some d) <->
     exists alpha idx, In alpha alphabets /\ In (length idx) [1] /\ Forall (fun i => i < 3) idx /\
       name = spell alpha idx) /\
  (forall name d, lookup ivec3_scalars name = Some d ->
     d_result d = String.length name /\ length (shuffle3 d v) = String.length name /\
     forall i c, String.get i name = Some c ->
       exists j, position c = Some j /\ j < 3 /\ nth_error (shuffle3 d v) i = nth_error (l3 v) j).
Proof.
  intros A v. apply (table_ok ivec3_scalars 3 [1] (el3 v) (l3 v)).
  - lia.
  - vm_compute; reflexivity.
  - vm_compute; reflexivity.
  - intros i Hi. destruct v. do 3 (destruct i as [|i]; [reflexivity|]). lia.
Qed.

(** C04, ivec4: the declared swizzle names are exactly the words of length
    2 or 3 or 4 over the first 4 letters of one alphabet, and the value read through one
    has in position [i] the component its [i]-th letter names. *)
Lemma C04_ivec4_swizzles_pf : forall (A : Type) (v : vec4 A),
  (forall name, (exists d, lookup ivec4_shuffles name = Some d) <->
     exists alpha idx, In alpha alphabets /\ In (length idx) [2; 3; 4] /\ Forall (fun i => i < 4) idx /\
       name = spell alpha idx) /\
  (forall name d, lookup ivec4_shuffles name = Some d ->
     d_result d = String.length name /\ length (shuffle4 d v) = String.length name /\
     forall i c, String.get i name = Some c ->
       exists j, position c = Some j /\ j < 4 /\ nth_error (shuffle4 d v) i = nth_error (l4 v) j).
Proof.
  intros A v. apply (table_ok ivec4_shuffles 4 [2; 3; 4] (el4 v) (l4 v)).
  - lia.
  - vm_compute; reflexivity.
  - vm_compute; reflexivity.
  - intros i Hi. destruct v. do 4 (destruct i as [|i]; [reflexivity|]). lia.
Qed.

(** C03, ivec4: the component members are x/r/s, y/g/t, z/b/p, w/a/q and nothing else, and each
    reads the component its letter names. *)
Lemma C03_ivec4_members_pf : forall (A : Type) (v : vec4 A),
  (forall name, (exists d, lookup ivec4_scalars name = Some d) <->
     exists alpha idx, In alpha alphabets /\ In (length idx) [1] /\ Forall (fun i => i < 4) idx /\
       name = spell alpha idx) /\
  (forall name d, lookup ivec4_scalars name = Some d ->
     d_result d = String.length name /\ length (shuffle4 d v) = String.length name /\
     forall i c, String.get i name = Some c ->
       exists j, position c = Some j /\ j < 4 /\ nth_error (shuffle4 d v) i = nth_error (l4 v) j).
Proof.
  intros A v. apply (table_ok ivec4_scalars 4 [1] (el4 v) (l4 v)).
  - lia.
  - vm_compute; reflexivity.
  - vm_compute; reflexivity.
  - intros i Hi. destruct v. do 4 (destruct i as [|i]; [reflexivity|]). lia.
Qed.

(*PROPS
Example C04_ex : exists d, lookup vec4_shuffles "qtp"%string = Some d /\ shuffle4 d (V4 10 20 30 40) = [40; 20; 30].
Proof. eexists; split; [vm_compute; reflexivity|reflexivity]. Qed.
Example C04_mixed_alphabets : lookup vec4_shuffles "xg"%string = None /\ lookup vec3_shuffles "xw"%string = None.
Proof. split; vm_compute; reflexivity. Qed.
PROPS*)