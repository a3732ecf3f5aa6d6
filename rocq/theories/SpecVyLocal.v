(** What the Vyper printers see of a node from above it. *)
From Coq Require Import String List Bool.
From Verif Require Import Base Json SpecTree.
Import ListNotations.
Open Scope string_scope.
Open Scope list_scope.

(** The operations, which get parentheses as operands. *)
Definition vy_operations : list string := ["BinOp"; "Compare"; "BoolOp"].

(** Both are nodes, and what a parent asks about a node - is it an operation -
    has the same answer for both. *)
Definition vy_alike_for_parent (x x' : json) : Prop :=
  exists s s', get_str x "ast_type" = Some s /\ get_str x' "ast_type" = Some s' /\
    (In s vy_operations <-> In s' vy_operations).

(** The keys whose node is not (or not only) printed by its own printer: the
    parent takes a field of it. *)
Definition vy_inspected : list string := ["op"; "doc_string"].

(** Not a comment: what is below a comment is printed as flowed text. *)
Definition no_vy_comment (y : json) : Prop := get_str y "ast_type" <> Some "Comment".

(** A node that is not an operation. *)
Definition vy_atomic (x : json) : Prop :=
  exists s, get_str x "ast_type" = Some s /\ ~ In s vy_operations.

(** The words written for the operators. *)
Definition vy_words : list (string * string) :=
  [("Add", "+"); ("Sub", "-"); ("Mult", "*"); ("Div", "/"); ("Mod", "%"); ("Pow", "**"); ("And", "and"); ("Or", "or");
   ("BitAnd", "&"); ("BitOr", "|"); ("BitXor", "^"); ("Eq", "=="); ("NotEq", "!="); ("Gt", ">"); ("GtE", ">="); ("Lt", "<"); ("LtE", "<=")].

(** "and" and "or" are the operators of boolean operations, and of no other. *)
Definition vy_sorted (ast : json) : Prop :=
  forall p x op t, subtree p ast = Some x -> oget x "op" = Some op -> get_str op "ast_type" = Some t ->
    (get_str x "ast_type" = Some "BoolOp" <-> In t ["And"; "Or"]).
