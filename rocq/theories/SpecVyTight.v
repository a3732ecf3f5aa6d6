(** Places in a Vyper program that ask for a tight expression. *)
From Coq Require Import String Ascii List NArith ZArith Bool.
From Verif Require Import Base Json MutationType SpecLiteral SpecVyText SpecVyEdit SpecVyIdle.
Import ListNotations.
Open Scope string_scope.
Open Scope list_scope.

(** [asks p k e x]: in [x] the expression [e] stands where Python's grammar asks
    for one that binds at least as tightly as [k] says ([binding]).  With [p]
    the printer writes a binary operation in that place in parentheses. *)
Inductive asks : bool -> nat -> vexp -> thing -> Prop :=
| as_left : forall op a b, asks true (left_side op) a (TE (VBin op a b))
| as_right : forall op a b, asks true 3 b (TE (VBin op a b))
| as_cmp_left : forall op a b, asks true 3 a (TE (VCmp op a b))
| as_cmp_right : forall op a b, asks true 3 b (TE (VCmp op a b))
| as_invert : forall a, asks true 3 a (TE (VInvert a))
| as_member : forall a x, asks false 5 a (TE (VAttr a x))
| as_base : forall a i l, asks false 5 a (TE (VSub a i l))
| as_function : forall f args kws, asks false 5 f (TE (VCall f args kws))
| as_target : forall t i b, asks false 4 t (TS (VsFor t i b))
| as_variable : forall x p c i ty v, asks false 4 x (TD (VdVar x p c i ty v)).

Definition fits (p : bool) (k : nat) (e : vexp) : Prop := (p = true /\ binding e = 1) \/ k <= binding e.

(** The parts that an edit of the kind [t] may leave without parentheses that are
    needed: a signed expression that comes to stand on the left of a power; an
    integer, which may become negative, in such a place or in that of a name; a
    call in a place that asks for more than one of its arguments gives. *)
Inductive loose : mutation_type -> thing -> Prop :=
| lo_power : forall op a b, In op arithmetic_symbols -> binding a = 3 -> loose (Generic ArithmeticBinaryOp) (TE (VBin op a b))
| lo_exponent : forall a b, binding b = 3 -> loose (Generic SwapOperatorArguments) (TE (VBin "**" a b))
| lo_integer : forall k z x, asks true 4 (VInt z) x \/ asks false k (VInt z) x -> loose (Generic Integer) x
| lo_call : forall p k f args kws e x, asks p k (VCall f args kws) x -> In e args -> ~ fits p k e -> loose (Generic FunctionCall) x.

(** No such part anywhere in the program. *)
Definition tight (t : mutation_type) (l : list vdef) : Prop := forall x, inside x (TP l) -> ~ loose t x.
