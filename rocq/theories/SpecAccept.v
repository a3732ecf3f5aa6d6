(** Specification: which nodes each operator is meant to be applied to. *)
From Coq Require Import String List NArith ZArith Bool.
From Verif Require Import Base Json MutationType OpCommon SpecOps SpecTotal.
Import ListNotations.
Open Scope list_scope.
Open Scope string_scope.

(** Operators whose operands may not be exchanged freely. *)
Definition non_commutative : list string := ["-"; "/"; "%"; "**"; ">"; "<"; "<="; ">="; "<<"; ">>"].
Definition vy_non_commutative : list string := ["Sub"; "Div"; "Mod"; "Pow"; "Gt"; "Lt"; "LtE"; "GtE"].

(** A binary operation whose operator belongs to [class]. *)
Definition sol_binary (class : list string) (n : json) : Prop :=
  is_sol "BinaryOperation" n /\ exists op, In op class /\ has_field n "operator" (JStr op).

Definition vy_binary (class : list string) (n : json) : Prop :=
  (is_vy "BinOp" n \/ is_vy "BoolOp" n \/ is_vy "Compare" n) /\
  exists op t, has_field n "op" op /\ In t class /\ is_vy t op.

(** [s] begins with [pre] (followed by a character boundary, which is
    automatic for UTF-8 text when [pre] is ASCII). *)
Definition text_starts (pre s : string) : Prop :=
  exists rest, s = pre ++ rest /\ (forall c rest', rest = String c rest' -> is_cont_byte c = false).

Definition sol_class (g : generic_mutation) : option (list string) :=
  match g with
  | ArithmeticBinaryOp => Some arithmetic
  | LogicalBinaryOp => Some logical
  | BitwiseBinaryOp => Some bitwise
  | BitshiftBinaryOp => Some bitshift
  | ComparisonBinaryOp => Some comparison
  | _ => None
  end.

(** No Vyper AST operator denotes a shift. *)
Definition vy_class (g : generic_mutation) : option (list string) :=
  match g with
  | ArithmeticBinaryOp => Some vy_arithmetic
  | LogicalBinaryOp => Some vy_logical
  | BitwiseBinaryOp => Some vy_bitwise
  | BitshiftBinaryOp => Some []
  | ComparisonBinaryOp => Some vy_comparison
  | _ => None
  end.

(** Enough statements for the line swappers, as the code counts them. *)
Definition swappable (ret : json -> Prop) (l : list json) : Prop :=
  2 <= length l /\ (one_place ret l -> 3 <= length l).

Definition sol_accepts (t : mutation_type) (n : json) : Prop :=
  match t with
  | Generic g =>
      match g with
      | ArithmeticBinaryOp => sol_binary arithmetic n
      | LogicalBinaryOp => sol_binary logical n
      | BitwiseBinaryOp => sol_binary bitwise n
      | BitshiftBinaryOp => sol_binary bitshift n
      | ComparisonBinaryOp => sol_binary comparison n
      | SwapOperatorArguments => sol_binary non_commutative n
      | UnaryOp => is_sol "UnaryOperation" n /\ exists p op,
          has_field n "prefix" (JBool p) /\ has_field n "operator" (JStr op) /\
          In op (if p then prefix_ops else postfix_ops)
      | Assignment => is_sol "Assignment" n /\ exists ts, sol_type_of n ts /\
          (text_starts "uin" ts \/ text_starts "int" ts \/ text_starts "boo" ts)
      | DeleteStatement => is_sol "Block" n /\ exists l, has_field n "statements" (JArr l) /\
          2 <= length l /\ one_place (is_sol "ExpressionStatement") l
      | FunctionCall => is_sol "FunctionCall" n /\ exists l, has_field n "arguments" (JArr l) /\
          l <> [] /\ (forall x, l = [x] -> ~ is_sol "Literal" x)
      | SwapFunctionArguments => is_sol "FunctionCall" n /\ exists l ts,
          has_field n "arguments" (JArr l) /\ two_places (fun x => sol_type_of x ts) l
      | IfStatement => is_sol "IfStatement" n /\ exists c, has_field n "condition" c /\ c <> JNull
      | Integer => is_sol "Literal" n /\ has_field n "kind" (JStr "number") /\ exists v,
          has_field n "value" (JStr v) /\ ~ (exists a b, v = a ++ "." ++ b)
      | SwapLines => is_sol "Block" n /\ exists l, has_field n "statements" (JArr l) /\
          swappable (is_sol "Return") l
      end
  | Solidity s =>
      match s with
      | Require => is_sol "FunctionCall" n /\ ~ has_field n "arguments" (JArr []) /\ exists f,
          has_field n "expression" f /\ has_field f "name" (JStr "require")
      | UncheckedBlock => is_sol "Block" n /\ exists l, has_field n "statements" (JArr l) /\ l <> [] /\
          (one_place (is_sol "Return") l -> 2 <= length l) /\
          (one_place (is_sol "UncheckedBlock") l -> 2 <= length l) /\
          (one_place (is_sol "Return") l -> one_place (is_sol "UncheckedBlock") l -> 3 <= length l)
      | ElimDelegateCall => is_sol "MemberAccess" n /\ has_field n "memberName" (JStr "delegatecall")
      end
  end.

Definition vy_accepts (e : env) (t : mutation_type) (n : json) : Prop :=
  match t with
  | Generic g =>
      match g with
      | ArithmeticBinaryOp => vy_binary vy_arithmetic n
      | LogicalBinaryOp => vy_binary vy_logical n
      | BitwiseBinaryOp => vy_binary vy_bitwise n
      | BitshiftBinaryOp => False
      | ComparisonBinaryOp => vy_binary vy_comparison n
      | SwapOperatorArguments => vy_binary vy_non_commutative n
      | UnaryOp => is_vy "UnaryOp" n
      | Assignment => is_vy "Assign" n
      | DeleteStatement =>
          (is_vy "FunctionDef" n \/ is_vy "For" n \/ is_vy "If" n \/ is_vy "Module" n) /\
          exists l, has_field n "body" (JArr l) /\ l <> [] /\
            (forall x, l = [x] -> exists s, e_pp e x = Ok s /\ ~ In s ["view"; "nonpayable"; "payable"])
      | FunctionCall => is_vy "Call" n /\ exists l, has_field n "args" (JArr l) /\ l <> []
      | SwapFunctionArguments => is_vy "Call" n /\ exists l, has_field n "args" (JArr l) /\ 2 <= length l
      | IfStatement => is_vy "If" n /\ exists c, has_field n "test" c
      | Integer => is_vy "Int" n
      | SwapLines => (is_vy "FunctionDef" n \/ is_vy "For" n \/ is_vy "If" n) /\
          exists l, has_field n "body" (JArr l) /\ swappable (is_vy "Return") l
      end
  | Solidity _ => False
  end.
