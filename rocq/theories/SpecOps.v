(** Specification vocabulary for the operator properties: what an edit of a
    node or of a list is, and what the replacement nodes look like.  Nothing
    here mentions the operators' code. *)
From Coq Require Import String List NArith ZArith Bool.
From Verif Require Import Base Json.
Import ListNotations.
Open Scope list_scope.
Open Scope string_scope.

(** The object [n'] has the keys of [n], the value [v] under [k] and the
    values of [n] under every other key. *)
Definition field_becomes (k : string) (v n n' : json) : Prop :=
  exists o o', n = JObj o /\ n' = JObj o' /\ map fst o' = map fst o /\
    In k (map fst o) /\ assoc k o' = Some v /\ (forall k', k' <> k -> assoc k' o' = assoc k' o).

(** The same for two keys. *)
Definition two_fields_become (ka : string) (a : json) (kb : string) (b n n' : json) : Prop :=
  exists o o', n = JObj o /\ n' = JObj o' /\ map fst o' = map fst o /\
    assoc ka o' = Some a /\ assoc kb o' = Some b /\
    (forall k, k <> ka -> k <> kb -> assoc k o' = assoc k o).

(** Field lookup. *)
Definition has_field (n : json) (k : string) (v : json) : Prop := oget n k = Some v.

(** [l'] is [l] with [x] in place [i]. *)
Definition slot_becomes {A} (i : nat) (x : A) (l l' : list A) : Prop :=
  i < length l /\ length l' = length l /\ nth_error l' i = Some x /\
  (forall k, k <> i -> nth_error l' k = nth_error l k).

(** [l'] is [l] with the elements at the two different places [i] and [j]
    exchanged. *)
Definition exchanged {A} (i j : nat) (l l' : list A) : Prop :=
  i <> j /\ i < length l /\ j < length l /\ length l' = length l /\
  nth_error l' i = nth_error l j /\ nth_error l' j = nth_error l i /\
  (forall k, k <> i -> k <> j -> nth_error l' k = nth_error l k).

(** Operator classes of Solidity. *)
Definition arithmetic : list string := ["+"; "-"; "*"; "/"; "%"; "**"].
Definition logical : list string := ["&&"; "||"].
Definition bitwise : list string := ["&"; "|"; "^"].
Definition bitshift : list string := ["<<"; ">>"].
Definition comparison : list string := ["=="; "!="; "<"; ">"; "<="; ">="].
Definition prefix_ops : list string := ["++"; "--"; "~"].
Definition postfix_ops : list string := ["++"; "--"].

(** Operator classes of the Vyper AST. *)
Definition vy_arithmetic : list string := ["Add"; "Sub"; "Mult"; "Div"; "Mod"; "Pow"].
Definition vy_logical : list string := ["And"; "Or"].
Definition vy_bitwise : list string := ["BitAnd"; "BitOr"; "BitXor"].
Definition vy_comparison : list string := ["Eq"; "NotEq"; "Lt"; "Gt"; "LtE"; "GtE"].

(** Solidity replacement nodes. *)
Definition is_sol (t : string) (n : json) : Prop := has_field n "nodeType" (JStr t).

Definition sol_bool_literal (b : bool) (v : json) : Prop :=
  is_sol "Literal" v /\ has_field v "kind" (JStr "bool") /\
  has_field v "value" (JStr (if b then "true" else "false")).

Definition sol_number_literal (z : Z) (v : json) : Prop :=
  is_sol "Literal" v /\ has_field v "kind" (JStr "number") /\ has_field v "value" (JStr (show_Z z)).

(** [!(c)]. *)
Definition sol_negation (c v : json) : Prop :=
  is_sol "UnaryOperation" v /\ has_field v "operator" (JStr "!") /\ has_field v "prefix" (JBool true) /\
  exists t, has_field v "subExpression" t /\ is_sol "TupleExpression" t /\
            has_field t "components" (JArr [c]).

(** A comment standing for the statement [x]. *)
Definition sol_commented (x v : json) : Prop :=
  is_sol "Comment" v /\ has_field v "value" x.

(** [unchecked { x }]. *)
Definition sol_unchecked_of (x v : json) : Prop :=
  is_sol "UncheckedBlock" v /\ has_field v "statements" (JArr [x]).

(** Solidity integer types with their bounds (both inclusive). *)
Inductive sol_int_type : string -> Z -> Z -> Prop :=
| uint_type : forall n, (0 < n <= 256)%N ->
    sol_int_type ("uint" ++ show_N n) 0 (2 ^ Z.of_N n - 1)
| int_type : forall n, (0 < n <= 256)%N ->
    sol_int_type ("int" ++ show_N n) (- 2 ^ (Z.of_N n - 1)) (2 ^ (Z.of_N n - 1) - 1).

(** Vyper replacement nodes. *)
Definition is_vy (t : string) (n : json) : Prop := has_field n "ast_type" (JStr t).

Definition vy_bool_constant (b : bool) (v : json) : Prop :=
  is_vy "NameConstant" v /\ has_field v "value" (JBool b).

(** [not c]. *)
Definition vy_negation (c v : json) : Prop :=
  is_vy "UnaryOp" v /\ has_field v "operand" c /\
  exists o, has_field v "op" o /\ is_vy "Not" o.

Definition vy_commented (x v : json) : Prop := is_vy "Comment" v /\ has_field v "value" x.

(** The declared type of a Solidity expression node. *)
Definition sol_type_of (n : json) (t : string) : Prop :=
  exists d, has_field n "typeDescriptions" d /\ has_field d "typeString" (JStr t).
