(** Documentation comments of Solidity declarations.  Independent of the
    printer. *)
From Coq Require Import String Ascii List NArith Bool.
From Verif Require Import Base Json SpecPrinter SpecSolRead.
Import ListNotations.
Open Scope string_scope.
Open Scope list_scope.

(** The compiler's node for a documentation comment. *)
Definition doc_node (text : string) (n : json) : Prop :=
  oget n "nodeType" = Some (JStr "StructuredDocumentation") /\ oget n "text" = Some (JStr text).

(** A text with the characters that end a comment in asterisks. *)
Definition closes_comment (s : string) : Prop := exists a b, s = String.append a (String.append "*/" b).

(** The lines of a comment in asterisks: each stands after a line break, blanks
    and an asterisk, and begins with a blank; the last one is only the end. *)
Inductive doc_lines : list string -> string -> Prop :=
| Doc_end w : blank w -> str_contains "010" w = true -> doc_lines [] (String.append w "*/")
| Doc_line w b l ls s :
    blank w -> str_contains "010" w = true -> blank_char b -> doc_lines ls s ->
    doc_lines (String b l :: ls) (String.append w (String.append "*" (String.append (String b l) s))).

Definition doc_comment (ls : list string) (s : string) : Prop :=
  exists w body, blank w /\ s = String.append w (String.append "/**" body) /\ doc_lines ls body.

(** For the reader [s] is one comment (after blanks): whatever follows, the
    reader goes on there. *)
Definition skipped (s : string) : Prop :=
  exists w o, blank w /\ s = String.append w o /\ forall rest, next (String.append o rest) = Some (None, rest).

(** The declarations the compiler attaches documentation to and the printer
    writes it for. *)
Definition documented_kinds : list string :=
  ["ContractDefinition"; "FunctionDefinition"; "ModifierDefinition"; "VariableDeclaration"].

(** [n] is the declaration [n0] with the documentation [d]. *)
Definition documented (d n0 n : json) : Prop :=
  oget n "documentation" = Some d /\ oget n0 "documentation" = None /\
  (forall k, k <> "documentation" -> oget n k = oget n0 k) /\
  exists ty, In ty documented_kinds /\ oget n "nodeType" = Some (JStr ty).

(** The tokens of a text. *)
Definition lexes (s : string) (ts : list token) : Prop := exists fuel, lex fuel s = Some ts.

(** [n'] is [n], perhaps with documentation. *)
Definition may_doc (n n' : json) : Prop :=
  n' = n \/ exists text d, doc_node text d /\ ~ closes_comment text /\ documented d n n'.

(** A node of type [ty], and the same node with other "nodes". *)
Definition nodes_doc (R : json -> json -> Prop) (ty : string) (n n' : json) : Prop :=
  oget n "nodeType" = Some (JStr ty) /\ (forall k, k <> "nodes" -> oget n' k = oget n k) /\
  exists ns ns', oget n "nodes" = Some (JArr ns) /\ oget n' "nodes" = Some (JArr ns') /\ Forall2 R ns ns'.

(** A definition at the top of a file: it may have documentation, and so may
    the members of a contract. *)
Definition top_doc (n n' : json) : Prop :=
  exists n1, (n1 = n \/ nodes_doc may_doc "ContractDefinition" n n1) /\ may_doc n1 n'.

(** A whole file and the same file with documentation. *)
Definition unit_doc (n n' : json) : Prop := nodes_doc top_doc "SourceUnit" n n'.
