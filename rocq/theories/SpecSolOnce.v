(** The Solidity mutation operators that change one word of the program. *)
From Coq Require Import String List.
From Verif Require Import Base MutationType.
Import ListNotations.
Open Scope list_scope.

(** Those that replace one operator by another, and the one that turns a
    "delegatecall" into a "call". *)
Definition word_kinds : list mutation_type :=
  [Generic ArithmeticBinaryOp; Generic LogicalBinaryOp; Generic BitwiseBinaryOp; Generic BitshiftBinaryOp;
   Generic ComparisonBinaryOp; Generic UnaryOp; Solidity ElimDelegateCall].
