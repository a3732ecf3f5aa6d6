(** What the Solidity printers see of a node from above it. *)
From Coq Require Import String List Bool.
From Verif Require Import Base Json.
Import ListNotations.
Open Scope string_scope.
Open Scope list_scope.

(** Both are nodes, and what a parent asks about a node - is it a block, is it a
    variable declaration - has the same answer for both. *)
Definition alike_for_parent (x x' : json) : Prop :=
  exists s s', get_str x "nodeType" = Some s /\ get_str x' "nodeType" = Some s' /\
    (s = "Block" <-> s' = "Block") /\ (s = "VariableDeclaration" <-> s' = "VariableDeclaration").

(** The keys whose node is not (or not only) printed by its own printer: the
    parent takes a field of it. *)
Definition sol_inspected : list string :=
  ["pathNode"; "definition"; "functionList"; "symbolAliases"; "returnParameters"; "typeName"].

(** An expression, as far as a parent can tell: a node, and neither a block nor
    a variable declaration. *)
Definition expression_like (x : json) : Prop :=
  exists s, get_str x "nodeType" = Some s /\ s <> "Block" /\ s <> "VariableDeclaration".
