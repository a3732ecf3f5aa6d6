(** Solidity programs in which an edit may leave everything as it is. *)
From Coq Require Import String Ascii List NArith ZArith Bool.
From Verif Require Import Base Json MutationType SpecLiteral SpecVyText SpecSolText SpecSolEdit.
Import ListNotations.
Open Scope string_scope.
Open Scope list_scope.

(** An element that occurs twice. *)
Definition repeated {A} (l : list A) : Prop := exists a x b c, l = a ++ x :: b ++ x :: c.

(** The parts that an edit of the kind [t] may turn into themselves: operands,
    arguments and lines to be exchanged that are equal, conditions that are
    constant already, numbers in the place where a number is to be put. *)
Inductive idle : mutation_type -> thing -> Prop :=
| id_operands : forall op a, In op ["-"; "/"; "%"; "**"; ">"; "<"; "<="; ">="; "<<"; ">>"] ->
    idle (Generic SwapOperatorArguments) (TE (XBin op a a))
| id_arguments : forall f args, repeated args -> idle (Generic SwapFunctionArguments) (TE (XCall f args))
| id_named : forall f args, repeated (map snd args) -> idle (Generic SwapFunctionArguments) (TE (XNamed f args))
| id_lines : forall a x b c, is_return x = false -> idle (Generic SwapLines) (TS (CBlock false (a ++ x :: b ++ x :: c)))
| id_if : forall b a o, idle (Generic IfStatement) (TS (CIf (truth b) a o))
| id_assign : forall op a z, idle (Generic Assignment) (TE (XAssign op a (number z)))
| id_assign_false : forall op a, idle (Generic Assignment) (TE (XAssign op a (truth false)))
| id_integer : forall z u, idle (Generic Integer) (TE (XLit (show_Z z) u)).

(** [x] is a part of [t], at any depth. *)
Inductive inside (x : thing) : thing -> Prop :=
| in_here : inside x x
| in_part : forall c t, step c c t t -> inside x c -> inside x t.

(** Nothing in the program that an edit of the kind [t] could leave as it is. *)
Definition lively (t : mutation_type) (l : list stop) : Prop := forall x, inside x (TU l) -> ~ idle t x.
