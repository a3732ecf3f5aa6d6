(** mutation.rs: the mutation algorithms, their names, and the operator lists
    of operators.rs. *)
From Coq Require Import String List Bool.
From Verif Require Import Base.
Import ListNotations.
Open Scope string_scope.
Open Scope list_scope.

(** [GenericMutation], [SolidityMutation], [MutationType]
    (mutation.rs:16-229). *)
Inductive generic_mutation : Type :=
| ArithmeticBinaryOp | LogicalBinaryOp | BitwiseBinaryOp | BitshiftBinaryOp
| ComparisonBinaryOp | Assignment | DeleteStatement | FunctionCall | IfStatement
| Integer | SwapFunctionArguments | SwapOperatorArguments | SwapLines | UnaryOp.

Inductive solidity_mutation : Type := Require | UncheckedBlock | ElimDelegateCall.

Inductive mutation_type : Type :=
| Generic (g : generic_mutation)
| Solidity (s : solidity_mutation).

Definition mutation_type_eq_dec (a b : mutation_type) : {a = b} + {a <> b}.
Proof. decide equality; decide equality. Defined.
Definition mt_eqb (a b : mutation_type) : bool :=
  if mutation_type_eq_dec a b then true else false.

(** [Display for MutationType] (mutation.rs:267-295). *)
Definition show_mt (m : mutation_type) : string :=
  match m with
  | Generic g =>
      match g with
      | ArithmeticBinaryOp => "ArithmeticBinaryOp"
      | LogicalBinaryOp => "LogicalBinaryOp"
      | BitwiseBinaryOp => "BitwiseBinaryOp"
      | BitshiftBinaryOp => "BitshiftBinaryOp"
      | ComparisonBinaryOp => "ComparisonBinaryOp"
      | Assignment => "Assignment"
      | DeleteStatement => "DeleteStatement"
      | FunctionCall => "FunctionCall"
      | IfStatement => "IfStatement"
      | Integer => "Integer"
      | SwapFunctionArguments => "SwapFunctionArguments"
      | SwapOperatorArguments => "SwapOperatorArguments"
      | SwapLines => "SwapLines"
      | UnaryOp => "UnaryOp"
      end
  | Solidity s =>
      match s with
      | Require => "Require"
      | UncheckedBlock => "UncheckedBlock"
      | ElimDelegateCall => "ElimDelegateCall"
      end
  end.

(** [FromStr for MutationType] (mutation.rs:232-265). *)
Definition read_mt (s : string) : res mutation_type :=
  if s =?s "ArithmeticBinaryOp" then Ok (Generic ArithmeticBinaryOp) else
  if s =?s "LogicalBinaryOp" then Ok (Generic LogicalBinaryOp) else
  if s =?s "BitwiseBinaryOp" then Ok (Generic BitwiseBinaryOp) else
  if s =?s "BitshiftBinaryOp" then Ok (Generic BitshiftBinaryOp) else
  if s =?s "ComparisonBinaryOp" then Ok (Generic ComparisonBinaryOp) else
  if s =?s "Assignment" then Ok (Generic Assignment) else
  if s =?s "DeleteStatement" then Ok (Generic DeleteStatement) else
  if s =?s "FunctionCall" then Ok (Generic FunctionCall) else
  if s =?s "IfStatement" then Ok (Generic IfStatement) else
  if s =?s "Integer" then Ok (Generic Integer) else
  if s =?s "SwapFunctionArguments" then Ok (Generic SwapFunctionArguments) else
  if s =?s "SwapOperatorArguments" then Ok (Generic SwapOperatorArguments) else
  if s =?s "SwapLines" then Ok (Generic SwapLines) else
  if s =?s "UnaryOp" then Ok (Generic UnaryOp) else
  if s =?s "Require" then Ok (Solidity Require) else
  if s =?s "UncheckedBlock" then Ok (Solidity UncheckedBlock) else
  if s =?s "ElimDelegateCall" then Ok (Solidity ElimDelegateCall) else
  Err ("MutationAlgorithmNotSupported: " ++ s).

(** [get_mutation_types_from_strings] (mutagenyx/src/mutation_generator.rs:34-39):
    unknown names are dropped. *)
Definition read_mts (l : list string) : list mutation_type :=
  flat_map (fun s => match read_mt s with Ok m => [m] | _ => [] end) l.

(** [get_all_mutation_algorithms] (mutation.rs:298-314): the keys of
    [all_algorithm_descriptions], sorted by name. *)
Definition all_mutation_types : list mutation_type :=
  [ Generic ArithmeticBinaryOp; Generic Assignment; Generic BitshiftBinaryOp;
    Generic BitwiseBinaryOp; Generic ComparisonBinaryOp; Generic DeleteStatement;
    Solidity ElimDelegateCall; Generic FunctionCall; Generic IfStatement;
    Generic Integer; Generic LogicalBinaryOp; Solidity Require;
    Generic SwapFunctionArguments; Generic SwapLines; Generic SwapOperatorArguments;
    Generic UnaryOp; Solidity UncheckedBlock ].

(** operators.rs. *)
Definition arithmetic_operators : list string := ["+"; "-"; "*"; "/"; "%"; "**"].
Definition logical_operators : list string := ["&&"; "||"].
Definition bitwise_operators : list string := ["&"; "|"; "^"].
Definition bitshift_operators : list string := ["<<"; ">>"].
Definition comparison_operators : list string := ["=="; "!="; ">"; "<"; ">="; "<="].
Definition non_commutative_operators : list string :=
  ["-"; "/"; "%"; "**"; ">"; "<"; "<="; ">="; "<<"; ">>"].
Definition prefix_operators : list string := ["++"; "--"; "~"].
Definition postfix_operators : list string := ["++"; "--"].
