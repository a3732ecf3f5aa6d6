(** The Vyper mutation operators that change one operator of the program. *)
From Coq Require Import String List.
From Verif Require Import Base MutationType.
Import ListNotations.
Open Scope list_scope.

Definition operator_kinds : list mutation_type :=
  [Generic ArithmeticBinaryOp; Generic LogicalBinaryOp; Generic BitwiseBinaryOp; Generic BitshiftBinaryOp; Generic ComparisonBinaryOp].
