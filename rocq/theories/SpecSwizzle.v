(** * Specification of swizzle names

    Which component a letter names, and which words are swizzles. *)
From Coq Require Import List String Ascii.
Import ListNotations.
Local Open Scope char_scope.

(** The three naming alphabets. *)
Definition alphabets : list (list ascii) :=
  [["x"; "y"; "z"; "w"]; ["r"; "g"; "b"; "a"]; ["s"; "t"; "p"; "q"]].

(** The component a letter names. *)
Definition position (c : ascii) : option nat :=
  match c with
  | "x" | "r" | "s" => Some 0
  | "y" | "g" | "t" => Some 1
  | "z" | "b" | "p" => Some 2
  | "w" | "a" | "q" => Some 3
  | _ => None
  end.

(** The word an index list spells in an alphabet. *)
Fixpoint spell (alpha : list ascii) (idx : list nat) : string :=
  match idx with
  | [] => EmptyString
  | i :: t => String (nth i alpha " ") (spell alpha t)
  end.
