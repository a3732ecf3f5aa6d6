(** The Solidity node printers (mutagenyx_lib/src/solidity/pretty_printer.rs).
    Line numbers refer to that file unless another one is named.

    A node printer is on_entry, print_node and on_exit run one after the other
    (pretty_print_visitor.rs:39-85), with the children of the node visited in
    between only by the DummyNodePrinter. *)
From Coq Require Import String Ascii List NArith ZArith Bool.
From Verif Require Import Base Json Printer.
Import ListNotations.
Open Scope string_scope.
Open Scope list_scope.

(** The settings of the factory (2572-2574).  Nothing in the crate changes the
    third one. *)
Record sctx : Type := SCtx {
  sc_semicolon : bool;      (* WRITE_EXPRESSION_STATEMENT_SEMICOLON *)
  sc_single : bool;         (* SINGLE_BLOCK_STATEMENTS_ON_SAME_LINE *)
  sc_nonpayable : bool      (* WRITE_NONPAYABLE_STATE_MUTABILITY *)
}.

Definition set_semicolon (c : sctx) (b : bool) : sctx := SCtx b (sc_single c) (sc_nonpayable c).
Definition set_single (c : sctx) (b : bool) : sctx := SCtx (sc_semicolon c) b (sc_nonpayable c).

(** The code of a node printer; [r] prints a sub-node with a given factory. *)
Definition scode := sctx -> (sctx -> json -> list cmd) -> json -> list cmd.

(** ** Helpers (25-271) *)

(** print_documentation_helper (25-36): also for a null "documentation". *)
Definition s_documentation (f : json -> list cmd) (n : json) : list cmd :=
  opt (oget n "documentation") (fun d => f d ++ [Newline; Indent]).

(** close_block_exit_helper (44-49). *)
Definition s_close_block : list cmd := [Dec; Newline; Indent; Tok "}"].

Definition tok_of (n : json) (k : string) : list cmd := opt (get_str n k) (fun s => [Tok s]).

(** print_name_helper (58-62). *)
Definition s_name (n : json) : list cmd := tok_of n "name".

(** print_operator_helper (71-77). *)
Definition s_operator (n : json) : list cmd :=
  opt (get_str n "operator") (fun s => [Space; Tok s; Space]).

(** print_statements_helper (111-148). *)
Definition s_statements (f : json -> list cmd) (single : bool) (n : json) : list cmd :=
  opt (arr_of n "statements") (fun l =>
    match l with
    | [] => []
    | [x] => if single then Space :: f x ++ [Space]
             else [Inc; Newline; Indent] ++ f x ++ [Dec; Newline; Indent]
    | _ => [Inc; Newline] ++ each (fun x => Indent :: f x) (fun _ => [Newline]) l ++
           [Dec; Newline; Indent]
    end).

(** print_arguments_helper (158-169). *)
Definition s_arguments (f : json -> list cmd) (n : json) : list cmd :=
  opt (arr_of n "arguments") (commas f).

(** print_return_parameters_helper (179-195). *)
Definition s_returns (f : json -> list cmd) (n : json) : list cmd :=
  opt (oget n "returnParameters") (fun p =>
    opt (get_array p "parameters") (fun l =>
      when (not_empty l) ([Space; Tok "returns"; Space] ++ f p))).

(** [s.chars()] as code points: the UTF-8 decoding.  (A Rust string is valid
    UTF-8; a stray byte, which cannot occur, is kept as it is.) *)
Fixpoint chars (s : string) : list N :=
  match s with
  | EmptyString => []
  | String a s1 =>
      let x := N_of_ascii a in
      if (x <? 192)%N then x :: chars s1
      else match s1 with
      | EmptyString => [x]
      | String b s2 =>
          let y := (N_of_ascii b mod 64)%N in
          if (x <? 224)%N then ((x mod 32) * 64 + y)%N :: chars s2
          else match s2 with
          | EmptyString => [x]
          | String c s3 =>
              let z := (N_of_ascii c mod 64)%N in
              if (x <? 240)%N then ((x mod 16) * 4096 + y * 64 + z)%N :: chars s3
              else match s3 with
              | EmptyString => [x]
              | String d s4 =>
                  let w := (N_of_ascii d mod 64)%N in
                  ((x mod 8) * 262144 + y * 4096 + z * 64 + w)%N :: chars s4
              end
          end
      end
  end.

(** [format!("{:x}")]: hexadecimal digits without leading zeros; code points
    have at most six. *)
Fixpoint hex_digits (fuel : nat) (n : N) : string :=
  match fuel with
  | O => ""
  | S fuel =>
      String.append (if (n <? 16)%N then "" else hex_digits fuel (n / 16))
                    (String (hex_digit (n mod 16)) EmptyString)
  end.
Definition hex_N (n : N) : string := hex_digits 8 n.

(** One character of unencode_string (205-251). *)
Definition unencode_char (c : N) : string :=
  if (c <? 32)%N then
    if (c =? 8)%N then "\b" else if (c =? 9)%N then "\t" else if (c =? 10)%N then "\n"
    else if (c =? 11)%N then "\v" else if (c =? 12)%N then "\f" else if (c =? 13)%N then "\r"
    else String.append "\x" (hex_N c)
  else if (c <? 127)%N then String (ascii_of_N c) EmptyString
  else String.append "\u" (hex_N c).

(** unencode_string (202-254). *)
Definition unencode (s : string) : string :=
  fold_right String.append "" (map unencode_char (chars s)).

Definition is_digit (c : ascii) : bool :=
  let n := N_of_ascii c in ((48 <=? n) && (n <=? 57))%N%bool.

(** contains_digits_and_or_dots (261-271). *)
Fixpoint all_digits_dots (s : string) : bool :=
  match s with
  | EmptyString => true
  | String c s => (is_digit c || Ascii.eqb c ".") && all_digits_dots s
  end.
Definition digits_dots (s : string) : bool := negb (is_empty_str s) && all_digits_dots s.

Definition sflag (n : json) (k : string) : bool :=
  match get_bool n k with Some b => b | None => false end.

Definition spaced_tok (s : string) : list cmd := [Space; Tok s].

(** ** The node printers *)

(** SourceUnitPrinter (284-339). *)
Definition s_SourceUnit : scode := fun c r n =>
  opt (get_str n "license") (fun s =>
    [Tok "//"; Space; Tok "SPDX-License-Identifier"; Tok ":"; Space; Tok s; Newline]) ++
  opt (arr_of n "nodes") (fun l =>
    each (fun x => Indent :: r c x) (fun _ => [Newline; Newline]) l ++ [Newline]) ++
  [Newline].

(** PragmaDirectivePrinter (343-386). *)
Fixpoint s_pragma (prev : string) (l : list json) : list cmd :=
  match l with
  | [] => []
  | v :: l =>
      match as_str v with
      | Some s =>
          let needs_space :=
            negb (smem prev ["<"; "<="; ">="; ">"; "^"] || (digits_dots prev && digits_dots s)) in
          when (not_empty l && needs_space) [Space] ++ [Tok s] ++ s_pragma s l
      | None => s_pragma prev l
      end
  end.

Definition s_PragmaDirective : scode := fun c r n =>
  opt (arr_of n "literals") (fun l => [Tok "pragma"] ++ s_pragma "pragma" l ++ [Tok ";"]).

(** ContractDefinitionPrinter (390-469). *)
Definition s_ContractDefinition : scode := fun c r n =>
  s_documentation (r c) n ++
  when (sflag n "abstract") [Tok "abstract"; Space] ++
  match get_str n "contractKind" with Some s => [Tok s] | None => [Tok "contract"] end ++
  [Space] ++ s_name n ++
  opt (arr_of n "baseContracts") (fun l =>
    when (not_empty l) ([Space; Tok "is"; Space] ++ commas (r c) l)) ++
  [Space; Tok "{"] ++
  opt (get_array n "nodes") (fun l =>
    when (not_empty l)
      ([Inc; Newline] ++
       each (fun x => Indent :: r c x ++
                      opt (get_str x "nodeType") (fun ty =>
                        when (ty =?s "VariableDeclaration") [Tok ";"]))
            (fun _ => [Newline; Newline]) l ++
       [Newline; Dec; Indent])) ++
  [Tok "}"].

(** StructDefinitionPrinter (473-521). *)
Definition s_StructDefinition : scode := fun c r n =>
  [Tok "struct"; Space] ++ s_name n ++ [Space; Tok "{"; Newline; Inc] ++
  opt (arr_of n "members") (each (fun x => Indent :: r c x ++ [Tok ";"]) (fun _ => [Newline])) ++
  s_close_block.

(** ElementaryTypeNamePrinter (525-542). *)
Definition s_ElementaryTypeName : scode := fun c r n =>
  s_name n ++
  opt (get_str n "stateMutability") (fun s => when (s =?s "payable") [Space; Tok s]).

(** MappingPrinter (546-571). *)
Definition s_Mapping : scode := fun c r n =>
  [Tok "mapping"; Tok "("] ++ sub (r c) n "keyType" ++ [Space; Tok "=>"; Space] ++
  sub (r c) n "valueType" ++ [Tok ")"].

(** UserDefinedTypeNamePrinter (575-589). *)
Definition s_UserDefinedTypeName : scode := fun c r n =>
  match oget n "pathNode" with Some p => s_name p | None => s_name n end.

(** VariableDeclarationPrinter (593-667). *)
Definition s_VariableDeclaration : scode := fun c r n =>
  s_documentation (r c) n ++ sub (r c) n "typeName" ++
  opt (get_str n "visibility") (fun s => when (negb (s =?s "internal")) [Space; Tok s]) ++
  when (sflag n "constant") [Space; Tok "constant"] ++
  when (sflag n "indexed") [Space; Tok "indexed"] ++
  sub (r c) n "overrides" ++
  opt (get_str n "mutability") (fun s => when (s =?s "immutable") [Space; Tok s]) ++
  opt (get_str n "storageLocation") (fun s =>
    when (smem s ["memory"; "storage"; "calldata"]) [Space; Tok s]) ++
  opt (get_str n "name") (fun s => when (negb (is_empty_str s)) [Space; Tok s]) ++
  opt (oget n "value") (fun v => [Space; Tok "="; Space] ++ r c v).

(** FunctionDefinitionPrinter (686-774). *)
Definition s_FunctionDefinition : scode := fun c r n =>
  s_documentation (r c) n ++
  opt (get_str n "kind") (fun k =>
    if smem k ["function"; "freeFunction"] then [Tok "function"; Space] ++ s_name n
    else if smem k ["constructor"; "receive"; "fallback"] then [Tok k] else []) ++
  sub (r c) n "parameters" ++
  opt (get_str n "visibility") spaced_tok ++
  when (sflag n "virtual") [Space; Tok "virtual"] ++
  opt (get_str n "stateMutability") (fun s =>
    when (if s =?s "nonpayable" then sc_nonpayable c else true) [Space; Tok s]) ++
  opt (oget n "overrides") (fun v => Space :: r c v) ++
  opt (arr_of n "modifiers") (fun l => when (not_empty l) (Space :: commas (r c) l)) ++
  s_returns (r c) n ++
  opt (oget n "body") (fun v => Space :: r c v) ++
  opt (get_bool n "implemented") (fun b => when (negb b) [Tok ";"]).

(** ParameterListPrinter (778-812). *)
Definition s_ParameterList : scode := fun c r n =>
  [Tok "("] ++ opt (arr_of n "parameters") (commas (r c)) ++ [Tok ")"].

(** BlockPrinter (836-878), for "Block", "UncheckedBlock" and "YulBlock". *)
Definition s_Block : scode := fun c r n =>
  opt (get_str n "nodeType") (fun s =>
    when (s =?s "UncheckedBlock") [Tok "unchecked"; Space]) ++
  [Tok "{"] ++ s_statements (r c) (sc_single c) n ++ [Tok "}"].

(** The list of components of 895-909 and 1677-1689. *)
Definition s_components (f : json -> list cmd) (l : list json) : list cmd :=
  each f (fun next => Tok "," :: when (negb (is_null next)) [Space]) l.

(** VariableDeclarationStatementPrinter (882-925). *)
Definition s_VariableDeclarationStatement : scode := fun c r n =>
  opt (arr_of n "declarations") (fun l =>
    let several := Nat.ltb 1 (length l) in
    when several [Tok "("] ++ s_components (r c) l ++ when several [Tok ")"]) ++
  opt (oget n "initialValue") (fun v => [Space; Tok "="; Space] ++ r c v) ++
  [Tok ";"].

(** BinaryOperationPrinter (929-947). *)
Definition s_BinaryOperation : scode := fun c r n =>
  sub (r c) n "leftExpression" ++ s_operator n ++ sub (r c) n "rightExpression".

(** LiteralPrinter (951-980). *)
Definition s_Literal : scode := fun c r n =>
  opt (get_str n "value") (fun v =>
    match get_str n "kind" with
    | Some k =>
        if k =?s "string" then [Tok (quoted (unencode v))]
        else if k =?s "unicodeString" then [Tok "unicode"; Tok (quoted v)]
        else [Tok v]
    | None => [Tok v]
    end) ++
  opt (get_str n "subdenomination") spaced_tok.

(** ExpressionStatementPrinter (994-1018). *)
Definition s_ExpressionStatement : scode := fun c r n =>
  sub (r c) n "expression" ++ when (sc_semicolon c) [Tok ";"].

(** AssignmentPrinter (1022-1040). *)
Definition s_Assignment : scode := fun c r n =>
  sub (r c) n "leftHandSide" ++ s_operator n ++ sub (r c) n "rightHandSide".

(** IdentifierPrinter (1044-1056) and NamePrinter (1928-1938). *)
Definition s_Identifier : scode := fun c r n => s_name n.

(** FunctionCallPrinter (1060-1135): named arguments, ... *)
Fixpoint s_named (f : json -> list cmd) (names args : list json) : list cmd :=
  match names, args with
  | x :: names, a :: args =>
      match as_str x with
      | Some s =>
          [Newline; Indent; Tok s; Tok ":"; Space] ++ f a ++
          when (not_empty names) [Tok ","] ++ s_named f names args
      | None => [Abort "called `Option::unwrap()` on a `None` value"]
      end
  | _, _ => []
  end.

(** ... and the whole call. *)
Definition s_FunctionCall : scode := fun c r n =>
  opt (oget n "expression") (fun v => r c v ++ [Tok "("]) ++
  match get_array n "names" with
  | Some names =>
      if not_empty names then
        opt (get_array n "arguments") (fun args =>
          if Nat.eqb (length names) (length args) then
            [Tok "{"; Inc] ++ s_named (r c) names args ++ [Dec; Newline; Indent; Tok "}"]
          else [Abort "names and arguments arrays have different lengths in FunctionCallPrinter"])
      else s_arguments (r c) n
  | None => s_arguments (r c) n
  end ++
  [Tok ")"] ++
  when (sflag n "tryCall") [Space; Tok "returns"].

(** UnaryOperationPrinter (1139-1170). *)
Definition s_UnaryOperation : scode := fun c r n =>
  opt (get_bool n "prefix") (fun prefix =>
    when prefix (opt (get_str n "operator") (fun s =>
      if s =?s "delete" then [Tok "delete"; Space] else [Tok s])) ++
    sub (r c) n "subExpression" ++
    when (negb prefix) (tok_of n "operator")).

(** MemberAccessPrinter (1174-1192). *)
Definition s_MemberAccess : scode := fun c r n =>
  sub (r c) n "expression" ++ [Tok "."] ++ tok_of n "memberName".

(** IndexAccessPrinter (1196-1216). *)
Definition s_IndexAccess : scode := fun c r n =>
  sub (r c) n "baseExpression" ++ [Tok "["] ++ sub (r c) n "indexExpression" ++ [Tok "]"].

Definition is_block (v : json) (yes no : list cmd) : list cmd :=
  opt (get_str v "nodeType") (fun ty => if ty =?s "Block" then yes else no).

(** IfStatementPrinter (1220-1272). *)
Definition s_IfStatement : scode := fun c r n =>
  [Tok "if"; Tok "("] ++ sub (r c) n "condition" ++ [Tok ")"; Space] ++
  opt (oget n "trueBody") (fun v =>
    is_block v (r c v) ([Newline; Inc; Indent] ++ r c v ++ [Dec])) ++
  opt (oget n "falseBody") (fun v =>
    is_block v ([Space; Tok "else"; Space] ++ r c v)
               ([Newline; Indent; Tok "else"; Newline; Inc; Indent] ++ r c v ++ [Dec])).

(** ImportDirectivePrinter (1276-1352). *)
Definition s_alias (f : json -> list cmd) (a : json) : list cmd :=
  sub f a "foreign" ++ opt (get_str a "local") (fun s => [Space; Tok "as"; Space; Tok s]).

Definition s_ImportDirective : scode := fun c r n =>
  let aliases := match arr_of n "symbolAliases" with Some l => l | None => [] end in
  [Tok "import"] ++
  when (not_empty aliases)
    ([Space; Tok "{"] ++ commas (s_alias (r c)) aliases ++ [Tok "}"]) ++
  [Space] ++
  when (not_empty aliases) [Tok "from"; Space] ++
  opt (get_str n "file") (fun s => [Tok (quoted s)]) ++
  opt (get_str n "unitAlias") (fun s =>
    when (negb (is_empty_str s)) [Space; Tok "as"; Space; Tok s]) ++
  [Tok ";"].

(** InheritanceSpecifierPrinter (1356-1373). *)
Definition s_InheritanceSpecifier : scode := fun c r n =>
  sub (r c) n "baseName" ++
  opt (get_array n "arguments") (fun l => [Tok "("] ++ commas (r c) l ++ [Tok ")"]).

(** ModifierInvocationPrinter (1377-1399). *)
Definition s_ModifierInvocation : scode := fun c r n =>
  sub (r c) n "modifierName" ++
  opt (arr_of n "arguments") (fun l => [Tok "("] ++ commas (r c) l ++ [Tok ")"]).

(** UsingForDirectivePrinter (1403-1471). *)
Definition s_using_item (n : json) : list cmd :=
  opt (oget n "definition") s_name ++
  opt (get_str n "operator") (fun s => [Space; Tok "as"; Space; Tok s]).

Definition s_UsingForDirective : scode := fun c r n =>
  [Tok "using"] ++ opt (oget n "libraryName") (fun v => Space :: r c v) ++
  opt (arr_of n "functionList") (fun l =>
    when (not_empty l)
      ([Space; Tok "{"; Inc; Newline; Indent] ++
       each s_using_item (fun _ => [Tok ","; Newline; Indent]) l ++
       [Newline; Dec; Indent; Tok "}"])) ++
  [Space; Tok "for"; Space] ++ sub (r c) n "typeName" ++
  when (sflag n "global") [Space; Tok "global"] ++ [Tok ";"].

(** ModifierDefinitionPrinter (1475-1515). *)
Definition s_ModifierDefinition : scode := fun c r n =>
  s_documentation (r c) n ++ [Tok "modifier"; Space] ++ s_name n ++
  sub (r c) n "parameters" ++
  when (sflag n "virtual") [Space; Tok "virtual"] ++
  sub (r c) n "overrides" ++
  opt (oget n "body") (fun v => Space :: r c v).

(** StructuredDocumentationPrinter (1519-1562). *)
Definition s_StructuredDocumentation : scode := fun c r n =>
  [Tok "/**"] ++
  opt (get_str n "text") (fun s =>
    flat_map (fun t => [Newline; Indent; Space; Tok "*"; Space; Flow t " *   "])
             (split_on "010" s)) ++
  [Newline; Indent; Space; Tok "*/"].

(** PlaceholderStatementPrinter (1566), ContinuePrinter (2381), BreakPrinter (2396). *)
Definition s_keyword_semi (s : string) : scode := fun c r n => [Tok s; Tok ";"].

(** ReturnPrinter (1581-1596). *)
Definition s_Return : scode := fun c r n =>
  [Tok "return"] ++ opt (oget n "expression") (fun v => Space :: r c v) ++ [Tok ";"].

(** EmitStatementPrinter (1600-1615). *)
Definition s_EmitStatement : scode := fun c r n =>
  opt (oget n "eventCall") (fun v => [Tok "emit"; Space] ++ r c v ++ [Tok ";"]).

(** OverrideSpecifierPrinter (1619-1636). *)
Definition s_OverrideSpecifier : scode := fun c r n =>
  [Tok "override"] ++
  opt (get_array n "overrides") (fun l =>
    when (not_empty l) ([Tok "("] ++ commas (r c) l ++ [Tok ")"])).

(** ElementaryTypeNameExpressionPrinter (1640-1661). *)
Definition s_ElementaryTypeNameExpression : scode := fun c r n =>
  when (sflag n "isPure")
    (opt (oget n "typeName") (fun v =>
       match get_str v "stateMutability" with Some s => [Tok s] | None => r c v end)).

(** TupleExpressionPrinter (1665-1695). *)
Definition s_TupleExpression : scode := fun c r n =>
  opt (arr_of n "components") (fun l =>
    when (not_empty l) ([Tok "("] ++ s_components (r c) l ++ [Tok ")"])).

(** CommentPrinter (1704-1725). *)
Definition s_Comment : scode := fun c r n =>
  [Tok "//"; Space] ++
  opt (get_str n "text") (fun s => when (negb (is_empty_str s)) [Flow s "// "]) ++
  sub (r c) n "value".

(** ErrorDefinitionPrinter (1729-1747). *)
Definition s_ErrorDefinition : scode := fun c r n =>
  [Tok "error"; Space] ++ s_name n ++ sub (r c) n "parameters" ++ [Tok ";"].

(** ForStatementPrinter (1751-1795). *)
Definition s_ForStatement : scode := fun c r n =>
  [Tok "for("] ++ sub (r c) n "initializationExpression" ++
  opt (oget n "condition") (fun v => Space :: r c v ++ [Tok ";"]) ++
  opt (oget n "loopExpression") (fun v => Space :: r (set_semicolon c false) v) ++
  [Tok ")"] ++
  opt (oget n "body") (fun v =>
    is_block v (Space :: r c v) ([Newline; Inc; Indent] ++ r c v ++ [Dec])).

(** ArrayTypeNamePrinter (1799-1816). *)
Definition s_ArrayTypeName : scode := fun c r n =>
  sub (r c) n "baseType" ++ [Tok "["] ++ sub (r c) n "length" ++ [Tok "]"].

(** InlineAssemblyPrinter (1820-1874). *)
Definition s_InlineAssembly : scode := fun c r n =>
  opt (get_str n "documentation") (fun s =>
    [Tok "///"; Space; Flow s "/// "; Newline; Indent]) ++
  [Tok "assembly"; Space] ++
  opt (arr_of n "flags") (fun l =>
    when (not_empty l)
      ([Tok "("] ++ commas (fun v => opt (as_str v) (fun s => [Tok (quoted (unencode s))])) l ++
       [Tok ")"; Space])) ++
  sub (r c) n "AST".

(** YulVariableDeclarationPrinter (1878-1900) and YulAssignmentPrinter (1942-1962). *)
Definition s_yul_assign (k : string) : scode := fun c r n =>
  opt (arr_of n k) (fun l => commas (r c) l ++ [Space]) ++
  [Tok ":="; Space] ++ sub (r c) n "value".

Definition s_YulVariableDeclaration : scode := fun c r n =>
  [Tok "let"; Space] ++ s_yul_assign "variables" c r n.

(** YulFunctionCallPrinter (1904-1919). *)
Definition s_YulFunctionCall : scode := fun c r n =>
  sub (r c) n "functionName" ++ [Tok "("] ++ s_arguments (r c) n ++ [Tok ")"].

(** YulLiteralPrinter (1966-1986). *)
Definition s_YulLiteral : scode := fun c r n =>
  opt (get_str n "kind") (fun k =>
    if smem k ["number"; "bool"] then tok_of n "value"
    else if k =?s "string" then opt (get_str n "value") (fun s => [Tok (quoted s)])
    else []).

(** YulForLoopPrinter (1990-2030). *)
Definition s_YulForLoop : scode := fun c r n =>
  let one := r (set_single c true) in
  [Tok "for"; Inc] ++
  opt (oget n "pre") (fun v => [Newline; Indent] ++ one v) ++
  opt (oget n "condition") (fun v => [Newline; Indent] ++ r c v) ++
  opt (oget n "post") (fun v => [Newline; Indent] ++ one v) ++
  [Dec; Newline; Indent] ++ sub (r c) n "body".

(** FunctionTypeNamePrinter (2034-2055). *)
Definition s_FunctionTypeName : scode := fun c r n =>
  [Tok "function"] ++ sub (r c) n "parameterTypes" ++
  opt (get_str n "visibility") (fun s => when (s =?s "external") [Space; Tok s]) ++
  s_returns (r c) n.

(** EventDefinitionPrinter (2059-2081). *)
Definition s_EventDefinition : scode := fun c r n =>
  [Tok "event"; Space] ++ s_name n ++ sub (r c) n "parameters" ++
  when (sflag n "anonymous") [Space; Tok "anonymous"] ++ [Tok ";"].

(** RevertStatementPrinter (2085-2100). *)
Definition s_RevertStatement : scode := fun c r n =>
  [Tok "revert"; Space] ++ sub (r c) n "errorCall" ++ [Tok ";"].

(** EnumDefinitionPrinter (2104-2145). *)
Definition s_EnumDefinition : scode := fun c r n =>
  [Tok "enum"; Space] ++ s_name n ++
  opt (arr_of n "members") (fun l =>
    when (not_empty l)
      ([Space; Tok "{"; Inc] ++
       each (fun x => [Newline; Indent] ++ r c x) (fun _ => [Tok ","; Space]) l ++
       [Dec; Newline; Indent; Tok "}"])).

(** UserDefinedValueTypeDefinitionPrinter (2149-2168). *)
Definition s_UserDefinedValueTypeDefinition : scode := fun c r n =>
  [Tok "type"; Space] ++ s_name n ++ [Space; Tok "is"; Space] ++
  sub (r c) n "underlyingType" ++ [Tok ";"].

(** NewExpressionPrinter (2172-2186). *)
Definition s_NewExpression : scode := fun c r n =>
  [Tok "new"] ++ opt (oget n "typeName") (fun v => Space :: r c v).

(** ConditionalPrinter (2190-2217). *)
Definition s_Conditional : scode := fun c r n =>
  sub (r c) n "condition" ++ [Space; Tok "?"; Space] ++
  sub (r c) n "trueExpression" ++ [Space; Tok ":"; Space] ++
  sub (r c) n "falseExpression".

(** FunctionCallOptionsPrinter (2221-2265). *)
Fixpoint s_options (f : json -> list cmd) (names opts : list json) : list cmd :=
  match names, opts with
  | x :: names, o :: opts =>
      match as_str x with
      | Some s =>
          [Tok s; Tok ":"; Space] ++ f o ++
          when (not_empty names) [Tok ","; Space] ++ s_options f names opts
      | None => [Abort "called `Option::unwrap()` on a `None` value"]
      end
  | _, _ => []
  end.

Definition s_FunctionCallOptions : scode := fun c r n =>
  sub (r c) n "expression" ++
  opt (get_array n "names") (fun names =>
    opt (get_array n "options") (fun opts =>
      if Nat.eqb (length names) (length opts) then
        when (not_empty names) ([Tok "{"] ++ s_options (r c) names opts ++ [Tok "}"])
      else [Abort "names and options array lengths differ in FunctionCallOptionsPrinter"])).

(** TryStatementPrinter (2269-2299). *)
Definition s_TryStatement : scode := fun c r n =>
  [Tok "try"; Space] ++
  opt (oget n "externalCall") (fun v => r c v ++ [Space]) ++
  opt (get_array n "clauses") (fun l =>
    each (fun x => r c x ++ [Space]) (fun _ => [Tok "catch"; Space]) l).

(** TryCatchClausePrinter (2303-2326). *)
Definition s_TryCatchClause : scode := fun c r n =>
  opt (get_str n "errorName") (fun s => when (negb (is_empty_str s)) [Tok s]) ++
  opt (oget n "parameters") (fun v => r c v ++ [Space]) ++
  sub (r c) n "block".

(** WhileStatementPrinter (2330-2350). *)
Definition s_WhileStatement : scode := fun c r n =>
  [Tok "while"; Space] ++
  opt (oget n "condition") (fun v => [Tok "("] ++ r c v ++ [Tok ")"]) ++
  opt (oget n "body") (fun v => Space :: r c v).

(** DoWhileStatementPrinter (2354-2377). *)
Definition s_DoWhileStatement : scode := fun c r n =>
  [Tok "do"] ++ opt (oget n "body") (fun v => Space :: r c v) ++
  opt (oget n "condition") (fun v =>
    [Space; Tok "while"; Space; Tok "("] ++ r c v ++ [Tok ")"]) ++
  [Tok ";"].

(** YulIfPrinter (2411-2429). *)
Definition s_YulIf : scode := fun c r n =>
  [Tok "if"; Space] ++ sub (r c) n "condition" ++ opt (oget n "body") (fun v => Space :: r c v).

(** YulSwitchPrinter (2433-2459). *)
Definition s_YulSwitch : scode := fun c r n =>
  [Tok "switch"; Space] ++ opt (oget n "expression") (fun v => r c v ++ [Space]) ++
  opt (get_array n "cases") (fun l =>
    when (not_empty l)
      ([Inc] ++ flat_map (fun v => [Newline; Indent] ++ r c v) l ++ [Dec])).

(** YulCasePrinter (2463-2488). *)
Definition s_YulCase : scode := fun c r n =>
  opt (oget n "value") (fun v =>
    match v with
    | JObj _ => [Tok "case"; Space] ++ r c v ++ [Space]
    | JStr s => when (s =?s "default") [Tok s; Space]
    | _ => []
    end) ++
  sub (r c) n "body".

(** YulFunctionDefinitionPrinter (2492-2529). *)
Definition s_YulFunctionDefinition : scode := fun c r n =>
  [Tok "function"; Space] ++ s_name n ++ [Tok "("] ++
  opt (get_array n "parameters") (commas (r c)) ++ [Tok ")"; Space] ++
  opt (get_array n "returnVariables") (fun l =>
    when (not_empty l)
      (let several := Nat.ltb 1 (length l) in
       [Tok "->"; Space] ++ when several [Tok "("] ++ commas (r c) l ++
       when several [Tok ")"] ++ [Space])) ++
  sub (r c) n "body".

(** YulBreakPrinter (2533), YulContinuePrinter (2547), YulLeavePrinter (2560). *)
Definition s_keyword (s : string) : scode := fun c r n => [Tok s].

(** printer_for (2617-2708). *)
Definition sol_table : list (string * scode) :=
  [ ("ArrayTypeName", s_ArrayTypeName); ("Assignment", s_Assignment);
    ("BinaryOperation", s_BinaryOperation); ("Block", s_Block);
    ("Break", s_keyword_semi "break"); ("Comment", s_Comment);
    ("Conditional", s_Conditional); ("Continue", s_keyword_semi "continue");
    ("ContractDefinition", s_ContractDefinition); ("DoWhileStatement", s_DoWhileStatement);
    ("ElementaryTypeName", s_ElementaryTypeName);
    ("ElementaryTypeNameExpression", s_ElementaryTypeNameExpression);
    ("EmitStatement", s_EmitStatement); ("EnumDefinition", s_EnumDefinition);
    ("EnumValue", s_Identifier); ("ErrorDefinition", s_ErrorDefinition);
    ("EventDefinition", s_EventDefinition); ("ExpressionStatement", s_ExpressionStatement);
    ("ForStatement", s_ForStatement); ("FunctionCall", s_FunctionCall);
    ("FunctionCallOptions", s_FunctionCallOptions);
    ("FunctionDefinition", s_FunctionDefinition); ("FunctionTypeName", s_FunctionTypeName);
    ("Identifier", s_Identifier); ("IdentifierPath", s_Identifier);
    ("IfStatement", s_IfStatement); ("ImportDirective", s_ImportDirective);
    ("IndexAccess", s_IndexAccess); ("InheritanceSpecifier", s_InheritanceSpecifier);
    ("InlineAssembly", s_InlineAssembly); ("Literal", s_Literal); ("Mapping", s_Mapping);
    ("MemberAccess", s_MemberAccess); ("ModifierDefinition", s_ModifierDefinition);
    ("ModifierInvocation", s_ModifierInvocation); ("NewExpression", s_NewExpression);
    ("OverrideSpecifier", s_OverrideSpecifier); ("ParameterList", s_ParameterList);
    ("PlaceholderStatement", s_keyword_semi "_"); ("PragmaDirective", s_PragmaDirective);
    ("Return", s_Return); ("RevertStatement", s_RevertStatement);
    ("SourceUnit", s_SourceUnit); ("StructDefinition", s_StructDefinition);
    ("StructuredDocumentation", s_StructuredDocumentation);
    ("TryCatchClause", s_TryCatchClause); ("TryStatement", s_TryStatement);
    ("TupleExpression", s_TupleExpression); ("UnaryOperation", s_UnaryOperation);
    ("UncheckedBlock", s_Block); ("UserDefinedTypeName", s_UserDefinedTypeName);
    ("UserDefinedValueTypeDefinition", s_UserDefinedValueTypeDefinition);
    ("UsingForDirective", s_UsingForDirective);
    ("VariableDeclaration", s_VariableDeclaration);
    ("VariableDeclarationStatement", s_VariableDeclarationStatement);
    ("WhileStatement", s_WhileStatement); ("YulAssignment", s_yul_assign "variableNames");
    ("YulBlock", s_Block); ("YulBreak", s_keyword "break"); ("YulCase", s_YulCase);
    ("YulContinue", s_keyword "continue"); ("YulForLoop", s_YulForLoop);
    ("YulFunctionCall", s_YulFunctionCall);
    ("YulFunctionDefinition", s_YulFunctionDefinition); ("YulIdentifier", s_Identifier);
    ("YulIf", s_YulIf); ("YulLeave", s_keyword "leave"); ("YulLiteral", s_YulLiteral);
    ("YulSwitch", s_YulSwitch); ("YulTypedName", s_Identifier);
    ("YulVariableDeclaration", s_YulVariableDeclaration) ].

(** DummyNodePrinter (274-280). *)
Definition s_dummy : scode := fun c r n => flat_map (r c) (children n).

Definition sol_printer_for (n : json) : scode :=
  match get_str n "nodeType" with
  | Some ty => match assoc ty sol_table with Some p => p | None => s_dummy end
  | None => s_dummy
  end.

(** traverse_sub_node_and_print (node_printer_helpers.rs:17-25). *)
Fixpoint sol_emit_at (k : nat) (c : sctx) (n : json) : list cmd :=
  match k with
  | O => []
  | S k => sol_printer_for n c (sol_emit_at k) n
  end.

Definition sol_emit (c : sctx) (n : json) : list cmd := sol_emit_at (S (jdepth n)) c n.

(** SolidityNodePrinterFactory::default (2595-2613). *)
Definition sol_default : sctx := SCtx true false false.

(** pretty_print_node (solidity/mutators.rs:221-231), and what is written for a
    whole AST. *)
Definition sol_print (oc : bool) (n : json) : res string :=
  print_text oc (sol_emit sol_default n).
