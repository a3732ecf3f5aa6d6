(** The Vyper node printers (mutagenyx_lib/src/vyper/pretty_printer.rs).  Line
    numbers refer to that file unless another one is named.

    A node printer is on_entry, print_node and on_exit run one after the other
    (pretty_print_visitor.rs:39-85), with the children of the node visited in
    between only by the DummyNodePrinter. *)
From Coq Require Import String Ascii List NArith ZArith Bool.
From Verif Require Import Base Json Printer VyMutators.
Import ListNotations.
Open Scope string_scope.
Open Scope list_scope.

(** What a printer depends on besides the node: overflow checks, the text of an
    [f64] ([to_string], an oracle), and the two settings of the factory
    (1525-1526). *)
Record vctx : Type := VCtx {
  vc_oc : bool;
  vc_float : Z * Z -> string;
  vc_tuple_parens : bool;      (* TUPLES_SHOULD_USE_PARENTHESES *)
  vc_decl_form : bool          (* FUNCTION_DEF_USES_STRUCT_DECL_FORM *)
}.

Definition set_parens (c : vctx) (b : bool) : vctx :=
  VCtx (vc_oc c) (vc_float c) b (vc_decl_form c).
Definition set_decl (c : vctx) (b : bool) : vctx :=
  VCtx (vc_oc c) (vc_float c) (vc_tuple_parens c) b.

(** The code of a node printer; [r] prints a sub-node with a given factory. *)
Definition vcode := vctx -> (vctx -> json -> list cmd) -> json -> list cmd.

(** ** Helpers (26-262) *)

(** write_simple_value (26-35). *)
Definition v_simple_value (f : json -> list cmd) (n : json) : list cmd := sub f n "value".

(** write_elements_array (46-57), write_key_of_node_as_array (69-81),
    write_args_as_array (92-99). *)
Definition v_array (f : json -> list cmd) (k : string) (n : json) : list cmd :=
  opt (arr_of n k) (commas f).

(** write_value_assignment (110-122). *)
Definition v_value_assignment (f : json -> list cmd) (n : json) : list cmd :=
  opt (oget n "value") (fun v => if is_null v then [] else Tok " = " :: f v).

(** write_body_as_nodes (133-148). *)
Definition v_body_nodes (f : json -> list cmd) (n : json) : list cmd :=
  opt (arr_of n "body") (fun l => flat_map (fun v => Indent :: f v ++ [Newline]) l).

(** write_indented_array (183-199). *)
Definition v_indented (f : json -> list cmd) (l : list json) : list cmd :=
  each (fun v => Indent :: f v) (fun _ => [Newline]) l.

(** write_indented_body_array (160-171). *)
Definition v_indented_body (f : json -> list cmd) (n : json) : list cmd :=
  opt (arr_of n "body") (v_indented f).

(** write_node_with_parens_maybe (211-229): nothing at all for a node without
    an "ast_type". *)
Definition v_parens_maybe (f : json -> list cmd) (n : json) : list cmd :=
  opt (get_str n "ast_type") (fun ty =>
    let needs := smem ty ["BinOp"; "Compare"; "BoolOp"] in
    when needs [Tok "("] ++ f n ++ when needs [Tok ")"]).

(** A doc string (502-508, 835-841). *)
Definition v_doc_string (s : string) : list cmd :=
  if str_contains "010" s then [Tok (triple_quoted s)]
  else [Tok """"""""; Flow s ""; Tok """"""""].

(** ** The node printers *)

(** NamePrinter (274-286). *)
Definition v_Name : vcode := fun c r n => opt (get_str n "id") (fun s => [Tok s]).

Definition flag (n : json) (k : string) : bool :=
  match get_bool n k with Some b => b | None => false end.

(** VariableDeclPrinter (290-345). *)
Definition v_VariableDecl : vcode := fun c r n =>
  opt (oget n "target") (fun t =>
    r c t ++ [Tok ":"; Space] ++
    when (flag n "is_public") [Tok "public"; Tok "("] ++
    when (flag n "is_constant") [Tok "constant"; Tok "("] ++
    when (flag n "is_immutable") [Tok "immutable"; Tok "("] ++
    sub (r (set_parens c true)) n "annotation" ++
    when (flag n "is_public") [Tok ")"] ++
    when (flag n "is_constant") [Tok ")"] ++
    when (flag n "is_immutable") [Tok ")"] ++
    v_value_assignment (r c) n).

(** SubscriptPrinter (349-365). *)
Definition v_Subscript : vcode := fun c r n => sub (r c) n "value" ++ sub (r c) n "slice".

(** IndexPrinter (369-387). *)
Definition v_Index : vcode := fun c r n =>
  [Tok "["] ++ v_simple_value (r (set_parens c false)) n ++ [Tok "]"].

(** TuplePrinter (393-409). *)
Definition v_Tuple : vcode := fun c r n =>
  when (vc_tuple_parens c) [Tok "("] ++ v_array (r c) "elements" n ++
  when (vc_tuple_parens c) [Tok ")"].

(** FunctionDefPrinter (425-527): on_entry prints the decorators. *)
Definition v_decorators (f : json -> list cmd) (l : list json) : list cmd :=
  match l with
  | [] => []
  | d :: l => Tok "@" :: f d ++ [Newline] ++
              flat_map (fun d => Indent :: Tok "@" :: f d ++ [Newline]) l
  end.

Definition v_FunctionDef : vcode := fun c r n =>
  opt (arr_of n "decorator_list") (fun l => v_decorators (r c) l ++ when (not_empty l) [Indent]) ++
  [Tok "def"; Space] ++
  opt (get_str n "name") (fun s => [Tok s]) ++
  [Tok "("] ++ sub (r c) n "args" ++ [Tok ")"] ++
  opt (oget n "returns") (fun v =>
    if is_null v then []
    else [Space; Tok "->"; Space] ++ r (set_parens c true) v) ++
  [Tok ":"] ++
  opt (oget n "doc_string") (fun v =>
    if is_null v then []
    else [Inc] ++
         opt (get_str v "value") (fun s => [Newline; Indent] ++ v_doc_string s ++ [Newline]) ++
         [Dec]) ++
  (if vc_decl_form c then [Space] ++ v_array (r c) "body" n
   else opt (arr_of n "body") (fun l => [Newline; Inc] ++ v_indented (r c) l ++ [Dec])).

(** ArgumentsPrinter (531-572): the last defaults go with the last arguments.
    [i] is the position of the first argument of [args]; [first] is
    [first_default_index].  With more defaults than arguments the subtraction of
    line 550 panics with overflow checks; without, it wraps to a number no
    position reaches. *)
Fixpoint v_args (f : json -> list cmd) (first : nat) (i : nat) (args defaults : list json)
  : list cmd :=
  match args with
  | [] => []
  | a :: args =>
      f a ++
      (if Nat.leb first i then
         match nth_error defaults (i - first) with
         | Some d => Tok "=" :: f d
         | None => [Abort "called `Option::unwrap()` on a `None` value"]
         end
       else []) ++
      when (not_empty args) [Tok ","; Space] ++
      v_args f first (S i) args defaults
  end.

Definition v_arguments : vcode := fun c r n =>
  opt (arr_of n "defaults") (fun defaults =>
    if not_empty defaults then
      opt (arr_of n "args") (fun args =>
        if Nat.leb (length defaults) (length args) then
          v_args (r c) (length args - length defaults) 0 args defaults
        else if vc_oc c then [Abort "attempt to subtract with overflow"]
        else commas (r c) args)
    else v_array (r c) "args" n).

(** ArgPrinter (576-596). *)
Definition v_arg : vcode := fun c r n =>
  opt (get_str n "arg") (fun s => [Tok s]) ++
  opt (oget n "annotation") (fun v => if is_null v then [] else [Tok ":"; Space] ++ r c v).

(** AssignPrinter (600-616). *)
Definition v_Assign : vcode := fun c r n =>
  sub (r c) n "target" ++ [Tok " = "] ++ sub (r c) n "value".

(** AttributePrinter (620-636). *)
Definition v_Attribute : vcode := fun c r n =>
  sub (r c) n "value" ++ [Tok "."] ++ opt (get_str n "attr") (fun s => [Tok s]).

(** The operator symbol of the "op" child, when the map knows it
    (662-668, 733-741). *)
Definition v_symbol (n : json) : option string :=
  match oget n "op" with
  | Some op => match get_str op "ast_type" with
               | Some ty => assoc ty python_operators
               | None => None
               end
  | None => None
  end.

(** AugAssignPrinter (650-675). *)
Definition v_AugAssign : vcode := fun c r n =>
  sub (r c) n "target" ++ [Space] ++ opt (v_symbol n) (fun s => [Tok s]) ++
  [Tok "="; Space] ++ sub (r c) n "value".

(** IntPrinter (679-693). *)
Definition v_Int : vcode := fun c r n =>
  match get_int n "value" with
  | Some z => [Tok (show_Z z)]
  | None => opt (get_float n "value") (fun x => [Tok (vc_float c x)])
  end.

(** ValuePrinter (698-708). *)
Definition v_Value : vcode := fun c r n => opt (get_str n "value") (fun s => [Tok s]).

(** BinOpPrinter (722-746). *)
Definition v_BinOp : vcode := fun c r n =>
  sub (v_parens_maybe (r c)) n "left" ++
  opt (v_symbol n) (fun s => [Space; Tok s; Space]) ++
  sub (v_parens_maybe (r c)) n "right".

(** BoolOpPrinter (750-779): the first two values only. *)
Definition v_BoolOp : vcode := fun c r n =>
  opt (arr_of n "values") (fun l =>
    match l with
    | x :: y :: _ =>
        v_parens_maybe (r c) x ++ [Space] ++ sub (r c) n "op" ++ [Space] ++
        v_parens_maybe (r c) y
    | _ => []
    end).

(** AssertPrinter (783-804). *)
Definition v_Assert : vcode := fun c r n =>
  [Tok "assert"; Space] ++ sub (r c) n "test" ++
  opt (oget n "msg") (fun v => if is_object v then [Tok ","; Space] ++ r c v else []).

(** StrPrinter (808-820). *)
Definition v_Str : vcode := fun c r n => opt (get_str n "value") (fun s => [Tok (quoted s)]).

(** ModulePrinter (824-856). *)
Definition v_Module : vcode := fun c r n =>
  opt (oget n "doc_string") (fun v =>
    opt (get_str v "value") (fun s => v_doc_string s ++ [Newline; Newline])) ++
  opt (arr_of n "body") (flat_map (fun v => r c v ++ [Newline; Newline])).

(** AnnAssignPrinter (860-878). *)
Definition v_AnnAssign : vcode := fun c r n =>
  sub (r c) n "target" ++
  opt (oget n "annotation") (fun v => [Tok ":"; Space] ++ r c v) ++
  v_value_assignment (r c) n.

(** ExprPrinter (882-894). *)
Definition v_Expr : vcode := fun c r n => sub (r c) n "value".

(** CallPrinter (898-922). *)
Definition v_Call : vcode := fun c r n =>
  sub (r c) n "func" ++ [Tok "("] ++ v_array (r c) "args" n ++
  opt (arr_of n "keywords") (fun l =>
    when (not_empty l) ([Tok ","; Space] ++ commas (r c) l)) ++
  [Tok ")"].

(** NameConstantPrinter (926-947). *)
Definition v_NameConstant : vcode := fun c r n =>
  opt (oget n "value") (fun v =>
    match v with
    | JBool true => [Tok "True"]
    | JBool false => [Tok "False"]
    | JNull => [Tok "None"]
    | _ => []
    end).

(** UnaryOpPrinter (951-977): "Not" and "Invert" only. *)
Definition v_unary_op (n : json) : option string :=
  match oget n "op" with Some op => get_str op "ast_type" | None => None end.

Definition v_UnaryOp : vcode := fun c r n =>
  opt (v_unary_op n) (fun ty =>
    if ty =?s "Not" then [Tok "not"] else if ty =?s "Invert" then [Tok "~"] else []) ++
  opt (oget n "operand") (fun v =>
    opt (v_unary_op n) (fun ty => when (ty =?s "Not") [Space]) ++ v_parens_maybe (r c) v).

(** InterfaceDefPrinter (981-1024). *)
Definition v_InterfaceDef : vcode := fun c r n =>
  [Tok "interface"; Space] ++
  opt (get_str n "name") (fun s => [Tok s; Tok ":"; Newline]) ++
  [Inc] ++ v_body_nodes (r (set_decl c true)) n ++ [Dec].

(** StructDefPrinter (1028-1065). *)
Definition v_StructDef : vcode := fun c r n =>
  [Tok "struct"; Space] ++
  opt (get_str n "name") (fun s => [Tok s; Tok ":"; Newline]) ++
  [Inc] ++ v_body_nodes (r c) n ++ [Dec].

(** ForPrinter (1069-1094). *)
Definition v_For : vcode := fun c r n =>
  [Tok "for"; Space] ++ sub (r c) n "target" ++ [Space; Tok "in"; Space] ++
  sub (r c) n "iter" ++ [Tok ":"; Newline; Inc] ++ v_body_nodes (r c) n ++ [Dec].

(** ListPrinter (1098-1110). *)
Definition v_List : vcode := fun c r n =>
  [Tok "["] ++ v_array (r c) "elements" n ++ [Tok "]"].

(** IfPrinter (1114-1146). *)
Definition v_If : vcode := fun c r n =>
  [Tok "if"; Space] ++ sub (r c) n "test" ++ [Tok ":"; Newline; Inc] ++
  v_indented_body (r c) n ++ [Dec] ++
  opt (arr_of n "orelse") (fun l =>
    when (not_empty l)
      ([Newline; Indent; Tok "else:"; Newline; Inc] ++ v_indented (r c) l ++ [Dec])).

(** BreakPrinter (1150), ContinuePrinter (1164), PassPrinter (1178). *)
Definition v_keyword_only (s : string) : vcode := fun c r n => [Tok s].

(** ReturnPrinter (1192-1208). *)
Definition v_Return : vcode := fun c r n =>
  [Tok "return"] ++ opt (oget n "value") (fun v => if is_null v then [] else Space :: r c v).

(** RaisePrinter (1212-1226). *)
Definition v_Raise : vcode := fun c r n => [Tok "raise"; Space] ++ sub (r c) n "exc".

(** ImportPrinter (1230-1250). *)
Definition v_Import : vcode := fun c r n =>
  [Tok "import"; Space] ++ opt (get_str n "name") (fun s => [Tok s]) ++
  opt (get_str n "alias") (fun s => [Space; Tok "as"; Space; Tok s]).

(** ImportFromPrinter (1254-1290). *)
Definition v_ImportFrom : vcode := fun c r n =>
  [Tok "from"; Space] ++
  opt (oget n "module") (fun m =>
    (if is_null m then [Tok "."] else opt (as_str m) (fun s => [Tok s])) ++ [Space]) ++
  [Tok "import"; Space] ++ opt (get_str n "name") (fun s => [Tok s]) ++
  opt (oget n "alias") (fun v => opt (as_str v) (fun s => [Space; Tok "as"; Space; Tok s])).

(** EventDefPrinter (1294-1313) and EnumDefPrinter (1502-1523). *)
Definition v_block_def (kw : string) : vcode := fun c r n =>
  [Tok kw; Space] ++ opt (get_str n "name") (fun s => [Tok s; Tok ":"]) ++
  [Newline; Inc] ++ v_indented_body (r c) n ++ [Dec].

(** LogPrinter (1317-1333). *)
Definition v_Log : vcode := fun c r n =>
  [Tok "log"; Space] ++ opt (oget n "value") (fun v => if is_null v then [] else r c v).

(** CommentPrinter (1342-1365). *)
Definition v_Comment : vcode := fun c r n =>
  opt (oget n "value") (fun v =>
    match v with
    | JStr s => [Tok "#"; Space; Flow s "# "]
    | JObj _ => [Tok "#"; Space; FlowOf (r c v) "# "]
    | _ => []
    end).

(** AndPrinter (1369-1385). *)
Definition v_And : vcode := fun c r n =>
  opt (get_str n "ast_type") (fun ty =>
    if ty =?s "And" then [Tok "and"] else if ty =?s "Or" then [Tok "or"] else []).

(** KeywordPrinter (1389-1405). *)
Definition v_keyword : vcode := fun c r n =>
  opt (get_str n "arg") (fun s => [Tok s; Tok "="] ++ sub (r c) n "value").

(** BytesPrinter (1409-1431): the hexadecimal digits after "0x", two by two.
    [None]: the slice of line 1422 is out of range or not on character
    boundaries. *)
Fixpoint byte_pairs (s : string) : option string :=
  match s with
  | EmptyString => Some ""
  | String a s =>
      match s with
      | EmptyString => None
      | String b s =>
          if (is_cont_byte a || match s with String d _ => is_cont_byte d | _ => false end)%bool
          then None
          else option_map (fun x => String "\" (String "x" (String a (String b x))))
                          (byte_pairs s)
      end
  end.

Definition v_Bytes : vcode := fun c r n =>
  opt (get_str n "value") (fun s =>
    match byte_pairs (str_drop 2 s) with
    | Some x => [Tok (String.append "b'" (String.append x "'"))]
    | None => [Abort "byte index out of range"]
    end).

(** DictPrinter (1435-1498). *)
Fixpoint v_pairs (f : json -> list cmd) (ks vs : list json) : list cmd :=
  match ks, vs with
  | k :: ks, v :: vs =>
      Indent :: f k ++ [Tok ":"; Space] ++ f v ++
      when (not_empty ks) [Tok ","; Newline] ++ v_pairs f ks vs
  | _, _ => []
  end.

Definition v_Dict : vcode := fun c r n =>
  [Tok "{"] ++
  opt (arr_of n "keys") (fun ks =>
    opt (arr_of n "values") (fun vs =>
      if Nat.eqb (length ks) (length vs) then
        when (not_empty ks)
          ([Newline; Inc] ++ v_pairs (r c) ks vs ++ [Dec; Newline; Indent])
      else [Abort "assertion failed: keys and values"])) ++
  [Tok "}"].

(** printer_for (1565-1633). *)
Definition vy_table : list (string * vcode) :=
  [ ("Name", v_Name); ("VariableDecl", v_VariableDecl); ("Subscript", v_Subscript);
    ("Index", v_Index); ("Tuple", v_Tuple); ("FunctionDef", v_FunctionDef);
    ("arguments", v_arguments); ("arg", v_arg); ("Assign", v_Assign);
    ("Attribute", v_Attribute); ("AugAssign", v_AugAssign); ("Int", v_Int);
    ("Decimal", v_Value); ("BinOp", v_BinOp); ("BoolOp", v_BoolOp); ("Compare", v_BinOp);
    ("Assert", v_Assert); ("Str", v_Str); ("Module", v_Module); ("AnnAssign", v_AnnAssign);
    ("Expr", v_Expr); ("Call", v_Call); ("NameConstant", v_NameConstant);
    ("UnaryOp", v_UnaryOp); ("InterfaceDef", v_InterfaceDef); ("StructDef", v_StructDef);
    ("For", v_For); ("List", v_List); ("If", v_If); ("Break", v_keyword_only "break");
    ("Continue", v_keyword_only "continue"); ("Pass", v_keyword_only "pass");
    ("Return", v_Return); ("Raise", v_Raise); ("Import", v_Import);
    ("ImportFrom", v_ImportFrom); ("EventDef", v_block_def "event"); ("Log", v_Log);
    ("Comment", v_Comment); ("And", v_And); ("Or", v_And); ("keyword", v_keyword);
    ("Bytes", v_Bytes); ("Dict", v_Dict); ("Hex", v_Value); ("EnumDef", v_block_def "enum") ].

(** DummyNodePrinter (264-270): the children, in order, nothing else. *)
Definition v_dummy : vcode := fun c r n => flat_map (r c) (children n).

Definition vy_printer_for (n : json) : vcode :=
  match get_str n "ast_type" with
  | Some ty => match assoc ty vy_table with Some p => p | None => v_dummy end
  | None => v_dummy
  end.

(** traverse_sub_node_and_print (node_printer_helpers.rs:17-25).  The printers
    only descend to sub-nodes; [k] is a bound on the depth of the node. *)
Fixpoint vy_emit_at (k : nat) (c : vctx) (n : json) : list cmd :=
  match k with
  | O => []
  | S k => vy_printer_for n c (vy_emit_at k) n
  end.

Definition vy_emit (c : vctx) (n : json) : list cmd := vy_emit_at (S (jdepth n)) c n.

(** VyperNodePrinterFactory::default (1548-1561). *)
Definition vy_default (oc : bool) (fl : Z * Z -> string) : vctx := VCtx oc fl false false.

(** pretty_print_node (vyper/mutators.rs:196-206), and what is written for a
    whole AST. *)
Definition vy_print (oc : bool) (fl : Z * Z -> string) (n : json) : res string :=
  print_text oc (vy_emit (vy_default oc fl) n).
