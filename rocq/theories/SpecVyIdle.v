(** Vyper programs in which an edit may leave everything as it is. *)
From Coq Require Import String Ascii List NArith ZArith Bool.
From Verif Require Import Base Json MutationType SpecLiteral SpecVyText SpecVyEdit.
Import ListNotations.
Open Scope string_scope.
Open Scope list_scope.

(** A statement other than a return that occurs twice; the only statement of a
    body, when it is what would stand in for it. *)
Definition repeated_line (l l' : list vstmt) : Prop := l' = l /\ exists a x b c, l = a ++ x :: b ++ x :: c /\ not_return x.
Definition only_filler (l l' : list vstmt) : Prop := l' = l /\ length l = 1 /\ filler l.

(** The parts that an edit of the kind [t] may turn into themselves. *)
Inductive idle : mutation_type -> thing -> Prop :=
| id_binary : forall op a, In op ["-"; "/"; "%"; "**"] -> idle (Generic SwapOperatorArguments) (TE (VBin op a a))
| id_compare : forall op a, In op ["<"; ">"; "<="; ">="] -> idle (Generic SwapOperatorArguments) (TE (VCmp op a a))
| id_arguments : forall f a x b c kws, idle (Generic SwapFunctionArguments) (TE (VCall f (a ++ x :: b ++ x :: c) kws))
| id_lines : forall x, body_edit repeated_line x x -> idle (Generic SwapLines) x
| id_delete : forall x, body_edit only_filler x x -> idle (Generic DeleteStatement) x
| id_if : forall c b o, idle (Generic IfStatement) (TS (VsIf (VConst (Some c)) b o))
| id_assign_int : forall t z, idle (Generic Assignment) (TS (VsAssign t (One (VInt z))))
| id_assign_bool : forall t b, idle (Generic Assignment) (TS (VsAssign t (One (VConst (Some b)))))
| id_assign_decimal : forall t s, idle (Generic Assignment) (TS (VsAssign t (One (VVerbatim false s))))
| id_integer : forall z, idle (Generic Integer) (TE (VInt z)).

(** [x] is a part of [t], at any depth. *)
Inductive inside (x : thing) : thing -> Prop :=
| in_here : inside x x
| in_part : forall c t, step c c t t -> inside x c -> inside x t.

(** Nothing in the program that an edit of the kind [t] could leave as it is. *)
Definition lively (t : mutation_type) (l : list vdef) : Prop := forall x, inside x (TP l) -> ~ idle t x.
