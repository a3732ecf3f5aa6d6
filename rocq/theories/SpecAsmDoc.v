(** Documentation of inline assembly.  Independent of the printer. *)
From Coq Require Import String Ascii List NArith Bool.
From Verif Require Import Base Json SpecPrinter SpecVyText SpecSolText.
Import ListNotations.
Open Scope string_scope.
Open Scope list_scope.

(** [n] is the assembly block [n0] with the documentation [text]: the compiler
    gives it as a string. *)
Definition noted_assembly (text : string) (n0 n : json) : Prop :=
  is_n n "InlineAssembly" /\ fld n "documentation" (JStr text) /\ gone n0 "documentation" /\
  forall k, k <> "documentation" -> oget n k = oget n0 k.

(** A comment after three slashes; a further line of it begins with three
    slashes again.  [ls] are the lines without their slashes. *)
Definition slash_comment (ls : list string) (s : string) : Prop :=
  exists t, s = String.append "/// " t /\ pieces "/// " ls t /\ Forall one_line ls.

(** The block [n'] is the block [n], but some of the assembly among its
    statements has documentation. *)
Definition assembly_documented (n n' : json) : Prop :=
  is_n n "Block" /\ (forall k, k <> "statements" -> oget n' k = oget n k) /\
  exists ns ns', fld n "statements" (JArr ns) /\ fld n' "statements" (JArr ns') /\
    Forall2 (fun x x' => x' = x \/ exists text, noted_assembly text x x') ns ns'.
