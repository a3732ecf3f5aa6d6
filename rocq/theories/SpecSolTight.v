(** Places in a Solidity program that ask for a tight expression. *)
From Coq Require Import String Ascii List NArith ZArith Bool.
From Verif Require Import Base Json MutationType SpecLiteral SpecVyText SpecSolText SpecSolRead SpecSolEdit SpecSolIdle.
Import ListNotations.
Open Scope string_scope.
Open Scope list_scope.

(** [asks P e x]: in [x] the expression [e] stands where, without parentheses,
    the grammar takes only expressions with [P]. *)
Definition binds (k : nat) (e : sexp) : bool := Nat.leb k (tightness e).
Inductive asks : (sexp -> bool) -> sexp -> thing -> Prop :=
| as_left : forall op a b, asks (binds (left_needs op)) a (TE (XBin op a b))
| as_right : forall op a b, asks (binds (right_needs op)) b (TE (XBin op a b))
| as_prefix : forall op a, asks (fun e => binds 15 e && negb (sticks op e)) a (TE (XPre op a))
| as_postfix : forall op a, asks (binds 16) a (TE (XPost op a))
| as_condition : forall c a b, asks (binds 4) c (TE (XCond c a b))
| as_target : forall op a b, asks (binds 4) a (TE (XAssign op a b))
| as_function : forall f args, asks (binds 16) f (TE (XCall f args))
| as_named : forall f args, asks (binds 16) f (TE (XNamed f args))
| as_options : forall f opts, asks (binds 16) f (TE (XOpts f opts))
| as_member : forall a x, asks (fun e => binds 16 e && negb (is_new e) && negb (is_bare e)) a (TE (XMember a x))
| as_index : forall a i, asks (fun e => binds 16 e && negb (is_new e)) a (TE (XIndex a i)).

(** What an expression begins with. *)
Inductive begins (a : sexp) : sexp -> Prop :=
| be_here : begins a a
| be_member : forall e x, begins a e -> begins a (XMember e x)
| be_call : forall e args, begins a e -> begins a (XCall e args)
| be_named : forall e args, begins a e -> begins a (XNamed e args).

(** The parts at which an edit of the kind [t] may go wrong, because no
    parentheses are added: an expression that does not fit the place of the one it
    replaces; one that does not fit as an operand of the edited operator; what is
    to be reverted no longer begins with a name. *)
Inductive loose (t : mutation_type) : thing -> Prop :=
| lo_place : forall P e e' x, asks P e x -> sol_edit t (TE e) (TE e') -> P e' = false -> loose t x
| lo_operand : forall P e x x', sol_edit t (TE x) (TE x') -> asks P e (TE x') -> P e = false -> loose t (TE x)
| lo_revert : forall a a' e, begins a e -> sol_edit t (TE a) (TE a') -> begins_id a' = false -> loose t (TS (CRevert e)).

(** No such part anywhere in the program. *)
Definition tight (t : mutation_type) (l : list stop) : Prop := forall x, inside x (TU l) -> ~ loose t x.
