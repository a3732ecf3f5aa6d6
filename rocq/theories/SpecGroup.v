(** How the Solidity compiler groups operands: the grammar's precedences, as far
    as they decide which tree a text without parentheses stands for. *)
From Coq Require Import String List Arith Bool.
From Verif Require Import Base Json MutationType SpecTree SpecOps.
Import ListNotations.
Open Scope string_scope.
Open Scope list_scope.

(** The binary operators, from the loosest to the tightest (Solidity reference,
    "Order of Precedence of Operators").  Unary operators in front are tighter,
    everything else is tighter still. *)
Definition levels : list (string * nat) :=
  [("||", 2); ("&&", 3); ("==", 4); ("!=", 4); ("<", 5); (">", 5); ("<=", 5); (">=", 5); ("|", 6); ("^", 7); ("&", 8);
   ("<<", 9); (">>", 9); ("+", 10); ("-", 10); ("*", 11); ("/", 11); ("%", 11); ("**", 12)].
Definition level_of (op : string) : nat := match assoc op levels with Some l => l | None => 0 end.

(** [a op b op c] is [(a op b) op c], except that [a ** b ** c] is [a ** (b ** c)]. *)
Definition left_needs (op : string) : nat := if op =?s "**" then 13 else level_of op.
Definition right_needs (op : string) : nat := if op =?s "**" then 12 else S (level_of op).

Definition string_at (n : json) (k : string) : string := match oget n k with Some (JStr s) => s | _ => "" end.
Definition flag_at (n : json) (k : string) : bool := match oget n k with Some (JBool b) => b | _ => false end.

(** How tightly a node holds together when it is written without parentheses. *)
Definition binding (n : json) : nat :=
  let ty := string_at n "nodeType" in
  if ty =?s "Assignment" then 1
  else if ty =?s "Conditional" then 1
  else if ty =?s "BinaryOperation" then level_of (string_at n "operator")
  else if ty =?s "UnaryOperation" then if flag_at n "prefix" then 13 else 14
  else 14.

(** How tight the node under the key [k] of [n] has to be for the text to be
    read as that node in that place. *)
Definition place_needs (n : json) (k : string) : nat :=
  let ty := string_at n "nodeType" in
  if ty =?s "BinaryOperation" then
    if k =?s "leftExpression" then left_needs (string_at n "operator")
    else if k =?s "rightExpression" then right_needs (string_at n "operator")
    else 0
  else if ty =?s "UnaryOperation" then
    if k =?s "subExpression" then if flag_at n "prefix" then 13 else 14 else 0
  else if ty =?s "Conditional" then if k =?s "condition" then 2 else 0
  else if ty =?s "Assignment" then if k =?s "leftHandSide" then 2 else 0
  else if (ty =?s "IndexAccess") || (ty =?s "IndexRangeAccess") then if k =?s "baseExpression" then 14 else 0
  else if (ty =?s "MemberAccess") || (ty =?s "FunctionCall") || (ty =?s "FunctionCallOptions") then
    if k =?s "expression" then 14 else 0
  else 0.

(** The text of the program groups as the tree does. *)
Definition well_grouped (ast : json) : Prop :=
  forall p n k v, subtree p ast = Some n -> has_field n k v -> place_needs n k <= binding v.

(** ** Operands and operators in a row *)

Inductive otree :=
| Operand (x : json)
| Operation (op : string) (l r : otree).

Fixpoint row (t : otree) : list (json + string) :=
  match t with
  | Operand x => [inl x]
  | Operation op l r => row l ++ inr op :: row r
  end.

Definition root_binding (t : otree) : nat :=
  match t with Operand x => binding x | Operation op _ _ => level_of op end.

(** Every operator is one of the language, and the operands are grouped as the
    precedences say. *)
Fixpoint grouped (t : otree) : Prop :=
  match t with
  | Operand _ => True
  | Operation op l r =>
      In op (map fst levels) /\ left_needs op <= root_binding l /\ right_needs op <= root_binding r /\ grouped l /\ grouped r
  end.

(** The tree of operations a node stands for. *)
Inductive operations : json -> otree -> Prop :=
| operations_operand n : ~ is_sol "BinaryOperation" n -> operations n (Operand n)
| operations_binary n op l r tl tr : is_sol "BinaryOperation" n -> has_field n "operator" (JStr op) ->
    has_field n "leftExpression" l -> has_field n "rightExpression" r -> operations l tl -> operations r tr ->
    operations n (Operation op tl tr).

(** ** Mutations *)

(** The mutations that leave no operation in a place for something tighter. *)
Definition grouping_mutations : list mutation_type :=
  map Generic [BitshiftBinaryOp; UnaryOp; Assignment; DeleteStatement;
    SwapFunctionArguments; IfStatement; Integer; SwapLines] ++
  map Solidity [Require; UncheckedBlock; ElimDelegateCall].

(** The mutations that do not. *)
Definition regrouping_mutations : list mutation_type :=
  map Generic [ArithmeticBinaryOp; BitwiseBinaryOp; ComparisonBinaryOp;
    LogicalBinaryOp; SwapOperatorArguments; FunctionCall].

(** Wherever the grouping of the text matters there is no binary operation
    without parentheses, and the operands of operations are at least as tight as
    unary operations. *)
Definition operand_of_operation (n : json) (k : string) : Prop :=
  is_sol "BinaryOperation" n /\ (k = "leftExpression" \/ k = "rightExpression").
Definition parenthesised (ast : json) : Prop :=
  well_grouped ast /\
  forall p n k v, subtree p ast = Some n -> has_field n k v ->
    (place_needs n k <> 0 -> ~ is_sol "BinaryOperation" v) /\ (operand_of_operation n k -> 13 <= binding v).
