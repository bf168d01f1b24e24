(** * Properties: swizzle members *)

From Coq Require Import String Ascii List Lia Bool Arith.
From Verif Require Import Types Spec SpecSwizzle ModelSwizzle.
From Verif Require Import PfSwizzle.
Import ListNotations.


(** C04, vec2: the declared swizzle names are exactly the words of length
    2 over the first 2 letters of one alphabet, and the value read through one
    has in position [i] the component its [i]-th letter names. *)
Theorem C04_vec2_swizzles : forall (A : Type) (v : vec2 A),
  (forall name, (exists d, lookup vec2_shuffles name = Some d) <->
     exists alpha idx, In alpha alphabets /\ In (length idx) [2] /\ Forall (fun i => i < 2) idx /\
       name = spell alpha idx) /\
  (forall name d, lookup vec2_shuffles name = Some d ->
     d_result d = String.length name /\ length (shuffle2 d v) = String.length name /\
     forall i c, String.get i name = Some c ->
       exists j, position c = Some j /\ j < 2 /\ nth_error (shuffle2 d v) i = nth_error (l2 v) j).
Proof. exact C04_vec2_swizzles_pf. Qed.
Print Assumptions C04_vec2_swizzles.

(** C03, vec2: the component members are x/r/s, y/g/t and nothing else, and each
    reads the component its letter names. *)
Theorem C03_vec2_members : forall (A : Type) (v : vec2 A),
  (forall name, (exists d, lookup vec2_scalars name = Some d) <->
     exists alpha idx, In alpha alphabets /\ In (length idx) [1] /\ Forall (fun i => i < 2) idx /\
       name = spell alpha idx) /\
  (forall name d, lookup vec2_scalars name = Some d ->
     d_result d = String.length name /\ length (shuffle2 d v) = String.length name /\
     forall i c, String.get i name = Some c ->
       exists j, position c = Some j /\ j < 2 /\ nth_error (shuffle2 d v) i = nth_error (l2 v) j).
Proof. exact C03_vec2_members_pf. Qed.
Print Assumptions C03_vec2_members.

(** C04, vec3: the declared swizzle names are exactly the words of length
    2 or 3 over the first 3 letters of one alphabet, and the value read through one
    has in position [i] the component its [i]-th letter names. *)
Theorem C04_vec3_swizzles : forall (A : Type) (v : vec3 A),
  (forall name, (exists d, lookup vec3_shuffles name = Some d) <->
     exists alpha idx, In alpha alphabets /\ In (length idx) [2; 3] /\ Forall (fun i => i < 3) idx /\
       name = spell alpha idx) /\
  (forall name d, lookup vec3_shuffles name = Some d ->
     d_result d = String.length name /\ length (shuffle3 d v) = String.length name /\
     forall i c, String.get i name = Some c ->
       exists j, position c = Some j /\ j < 3 /\ nth_error (shuffle3 d v) i = nth_error (l3 v) j).
Proof. exact C04_vec3_swizzles_pf. Qed.
Print Assumptions C04_vec3_swizzles.

(** C03, vec3: the component members are x/r/s, y/g/t, z/b/p and nothing else, and each
    reads the component its letter names. *)
Theorem C03_vec3_members : forall (A : Type) (v : vec3 A),
  (forall name, (exists d, lookup vec3_scalars name = Some d) <->
     exists alpha idx, In alpha alphabets /\ In (length idx) [1] /\ Forall (fun i => i < 3) idx /\
       name = spell alpha idx) /\
  (forall name d, lookup vec3_scalars name = Some d ->
     d_result d = String.length name /\ length (shuffle3 d v) = String.length name /\
     forall i c, String.get i name = Some c ->
       exists j, position c = Some j /\ j < 3 /\ nth_error (shuffle3 d v) i = nth_error (l3 v) j).
Proof. exact C03_vec3_members_pf. Qed.
Print Assumptions C03_vec3_members.

(** C04, vec4: the declared swizzle names are exactly the words of length
    2 or 3 or 4 over the first 4 letters of one alphabet, and the value read through one
    has in position [i] the component its [i]-th letter names. *)
Theorem C04_vec4_swizzles : forall (A : Type) (v : vec4 A),
  (forall name, (exists d, lookup vec4_shuffles name = Some d) <->
     exists alpha idx, In alpha alphabets /\ In (length idx) [2; 3; 4] /\ Forall (fun i => i < 4) idx /\
       name = spell alpha idx) /\
  (forall name d, lookup vec4_shuffles name = Some d ->
     d_result d = String.length name /\ length (shuffle4 d v) = String.length name /\
     forall i c, String.get i name = Some c ->
       exists j, position c = Some j /\ j < 4 /\ nth_error (shuffle4 d v) i = nth_error (l4 v) j).
Proof. exact C04_vec4_swizzles_pf. Qed.
Print Assumptions C04_vec4_swizzles.

(** C03, vec4: the component members are x/r/s, y/g/t, z/b/p, w/a/q and nothing else, and each
    reads the component its letter names. *)
Theorem C03_vec4_members : forall (A : Type) (v : vec4 A),
  (forall name, (exists d, lookup vec4_scalars name = Some d) <->
     exists alpha idx, In alpha alphabets /\ In (length idx) [1] /\ Forall (fun i => i < 4) idx /\
       name = spell alpha idx) /\
  (forall name d, lookup vec4_scalars name = Some d ->
     d_result d = String.length name /\ length (shuffle4 d v) = String.length name /\
     forall i c, String.get i name = Some c ->
       exists j, position c = Some j /\ j < 4 /\ nth_error (shuffle4 d v) i = nth_error (l4 v) j).
Proof. exact C03_vec4_members_pf. Qed.
Print Assumptions C03_vec4_members.

(** C04, ivec2: the declared swizzle names are exactly the words of length
    2 over the first 2 letters of one alphabet, and the value read through one
    has in position [i] the component its [i]-th letter names. *)
Theorem C04_ivec2_swizzles : forall (A : Type) (v : vec2 A),
  (forall name, (exists d, lookup ivec2_shuffles name = Some d) <->
     exists alpha idx, In alpha alphabets /\ In (length idx) [2] /\ Forall (fun i => i < 2) idx /\
       name = spell alpha idx) /\
  (forall name d, lookup ivec2_shuffles name = Some d ->
     d_result d = String.length name /\ length (shuffle2 d v) = String.length name /\
     forall i c, String.get i name = Some c ->
       exists j, position c = Some j /\ j < 2 /\ nth_error (shuffle2 d v) i = nth_error (l2 v) j).
Proof. exact C04_ivec2_swizzles_pf. Qed.
Print Assumptions C04_ivec2_swizzles.

(** C03, ivec2: the component members are x/r/s, y/g/t and nothing else, and each
    reads the component its letter names. *)
Theorem C03_ivec2_members : forall (A : Type) (v : vec2 A),
  (forall name, (exists d, lookup ivec2_scalars name = Some d) <->
     exists alpha idx, In alpha alphabets /\ In (length idx) [1] /\ Forall (fun i => i < 2) idx /\
       name = spell alpha idx) /\
  (forall name d, lookup ivec2_scalars name = Some d ->
     d_result d = String.length name /\ length (shuffle2 d v) = String.length name /\
     forall i c, String.get i name = Some c ->
       exists j, position c = Some j /\ j < 2 /\ nth_error (shuffle2 d v) i = nth_error (l2 v) j).
Proof. exact C03_ivec2_members_pf. Qed.
Print Assumptions C03_ivec2_members.

(** C04, ivec3: the declared swizzle names are exactly the words of length
    2 or 3 over the first 3 letters of one alphabet, and the value read through one
    has in position [i] the component its [i]-th letter names. *)
Theorem C04_ivec3_swizzles : forall (A : Type) (v : vec3 A),
  (forall name, (exists d, lookup ivec3_shuffles name = Some d) <->
     exists alpha idx, In alpha alphabets /\ In (length idx) [2; 3] /\ Forall (fun i => i < 3) idx /\
       name = spell alpha idx) /\
  (forall name d, lookup ivec3_shuffles name = Some d ->
     d_result d = String.length name /\ length (shuffle3 d v) = String.length name /\
     forall i c, String.get i name = Some c ->
       exists j, position c = Some j /\ j < 3 /\ nth_error (shuffle3 d v) i = nth_error (l3 v) j).
Proof. exact C04_ivec3_swizzles_pf. Qed.
Print Assumptions C04_ivec3_swizzles.

(** C03, ivec3: the component members are x/r/s, y/g/t, z/b/p and nothing else, and each
    reads the component its letter names. *)
Theorem C03_ivec3_members : forall (A : Type) (v : vec3 A),
  (forall name, (exists d, lookup ivec3_scalars name = Some d) <->
     exists alpha idx, In alpha alphabets /\ In (length idx) [1] /\ Forall (fun i => i < 3) idx /\
       name = spell alpha idx) /\
  (forall name d, lookup ivec3_scalars name = Some d ->
     d_result d = String.length name /\ length (shuffle3 d v) = String.length name /\
     forall i c, String.get i name = Some c ->
       exists j, position c = Some j /\ j < 3 /\ nth_error (shuffle3 d v) i = nth_error (l3 v) j).
Proof. exact C03_ivec3_members_pf. Qed.
Print Assumptions C03_ivec3_members.

(** C04, ivec4: the declared swizzle names are exactly the words of length
    2 or 3 or 4 over the first 4 letters of one alphabet, and the value read through one
    has in position [i] the component its [i]-th letter names. *)
Theorem C04_ivec4_swizzles : forall (A : Type) (v : vec4 A),
  (forall name, (exists d, lookup ivec4_shuffles name = Some d) <->
     exists alpha idx, In alpha alphabets /\ In (length idx) [2; 3; 4] /\ Forall (fun i => i < 4) idx /\
       name = spell alpha idx) /\
  (forall name d, lookup ivec4_shuffles name = Some d ->
     d_result d = String.length name /\ length (shuffle4 d v) = String.length name /\
     forall i c, String.get i name = Some c ->
       exists j, position c = Some j /\ j < 4 /\ nth_error (shuffle4 d v) i = nth_error (l4 v) j).
Proof. exact C04_ivec4_swizzles_pf. Qed.
Print Assumptions C04_ivec4_swizzles.

(** C03, ivec4: the component members are x/r/s, y/g/t, z/b/p, w/a/q and nothing else, and each
    reads the component its letter names. *)
Theorem C03_ivec4_members : forall (A : Type) (v : vec4 A),
  (forall name, (exists d, lookup ivec4_scalars name = Some d) <->
     exists alpha idx, In alpha alphabets /\ In (length idx) [1] /\ Forall (fun i => i < 4) idx /\
       name = spell alpha idx) /\
  (forall name d, lookup ivec4_scalars name = Some d ->
     d_result d = String.length name /\ length (shuffle4 d v) = String.length name /\
     forall i c, String.get i name = Some c ->
       exists j, position c = Some j /\ j < 4 /\ nth_error (shuffle4 d v) i = nth_error (l4 v) j).
Proof. exact C03_ivec4_members_pf. Qed.
Print Assumptions C03_ivec4_members.

Example C04_ex : exists d, lookup vec4_shuffles "qtp"%string = Some d /\ shuffle4 d (V4 10 20 30 40) = [40; 20; 30].
Proof. eexists; split; [vm_compute; reflexivity|reflexivity]. Qed.
Example C04_mixed_alphabets : lookup vec4_shuffles "xg"%string = None /\ lookup vec3_shuffles "xw"%string = None.
Proof. split; vm_compute; reflexivity. Qed.
