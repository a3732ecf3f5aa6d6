(** Solidity trees with comments in them, and one edit of a Solidity program. *)
From Coq Require Import String Ascii List NArith ZArith Bool.
From Verif Require Import Base Json MutationType SpecTree SpecLiteral SpecVyText SpecSolText.
Import ListNotations.
Open Scope string_scope.
Open Scope list_scope.

(** ** Comments *)

Definition is_comment (n : json) : bool :=
  match oget n "nodeType" with Some (JStr s) => s =?s "Comment" | _ => false end.

(** The tree with every comment taken out of every list. *)
Fixpoint without_comments (n : json) : json :=
  match n with
  | JArr l =>
      JArr ((fix go (l : list json) :=
               match l with
               | [] => []
               | x :: l => if is_comment x then go l else without_comments x :: go l
               end) l)
  | JObj o =>
      JObj ((fix go (o : list (string * json)) :=
               match o with [] => [] | (k, v) :: o => (k, without_comments v) :: go o end) o)
  | _ => n
  end.

(** No comment anywhere. *)
Definition uncommented (n : json) : Prop := forall p x, subtree p n = Some x -> is_comment x = false.

(** ** One edit of a program *)

(** What an edit may concern: an expression, a declaration of a variable, a
    statement, a member of a contract, a piece of the file, the whole file. *)
Inductive thing : Type :=
| TE (e : sexp) | TV (v : svar) | TS (s : sstmt) | TM (m : smember) | TP (p : stop) | TU (l : list stop).

Definition with_type (v : svar) (t : sexp) : svar :=
  SVar t (sv_visibility v) (sv_constant v) (sv_indexed v) (sv_override v) (sv_immutable v) (sv_location v) (sv_name v) (sv_value v).
Definition with_value (v : svar) (e : sexp) : svar :=
  SVar (sv_type v) (sv_visibility v) (sv_constant v) (sv_indexed v) (sv_override v) (sv_immutable v) (sv_location v) (sv_name v) (Some e).
Definition with_params (f : sfun) (l : list svar) : sfun :=
  SFun (sf_kind f) (sf_name f) l (sf_visibility f) (sf_virtual f) (sf_mutability f) (sf_override f) (sf_modifiers f) (sf_returns f) (sf_body f).
Definition with_modifiers (f : sfun) (l : list (sexp * option (list sexp))) : sfun :=
  SFun (sf_kind f) (sf_name f) (sf_params f) (sf_visibility f) (sf_virtual f) (sf_mutability f) (sf_override f) l (sf_returns f) (sf_body f).
Definition with_returns (f : sfun) (l : list svar) : sfun :=
  SFun (sf_kind f) (sf_name f) (sf_params f) (sf_visibility f) (sf_virtual f) (sf_mutability f) (sf_override f) (sf_modifiers f) l (sf_body f).
Definition with_body (f : sfun) (s : sstmt) : sfun :=
  SFun (sf_kind f) (sf_name f) (sf_params f) (sf_visibility f) (sf_virtual f) (sf_mutability f) (sf_override f) (sf_modifiers f) (sf_returns f) (Some s).

(** [step c c' t t']: [c] is a part of [t], and [t'] is [t] with [c'] in that
    place. *)
Inductive step : thing -> thing -> thing -> thing -> Prop :=
| st_bin_l : forall op a a' b, step (TE a) (TE a') (TE (XBin op a b)) (TE (XBin op a' b))
| st_bin_r : forall op a b b', step (TE b) (TE b') (TE (XBin op a b)) (TE (XBin op a b'))
| st_pre : forall op a a', step (TE a) (TE a') (TE (XPre op a)) (TE (XPre op a'))
| st_post : forall op a a', step (TE a) (TE a') (TE (XPost op a)) (TE (XPost op a'))
| st_cond : forall c c' a b, step (TE c) (TE c') (TE (XCond c a b)) (TE (XCond c' a b))
| st_cond_yes : forall c a a' b, step (TE a) (TE a') (TE (XCond c a b)) (TE (XCond c a' b))
| st_cond_no : forall c a b b', step (TE b) (TE b') (TE (XCond c a b)) (TE (XCond c a b'))
| st_assign_l : forall op a a' b, step (TE a) (TE a') (TE (XAssign op a b)) (TE (XAssign op a' b))
| st_assign_r : forall op a b b', step (TE b) (TE b') (TE (XAssign op a b)) (TE (XAssign op a b'))
| st_call : forall f f' args, step (TE f) (TE f') (TE (XCall f args)) (TE (XCall f' args))
| st_call_arg : forall f u e e' v, step (TE e) (TE e') (TE (XCall f (u ++ e :: v))) (TE (XCall f (u ++ e' :: v)))
| st_named : forall f f' args, step (TE f) (TE f') (TE (XNamed f args)) (TE (XNamed f' args))
| st_named_arg : forall f u k e e' v, step (TE e) (TE e') (TE (XNamed f (u ++ (k, e) :: v))) (TE (XNamed f (u ++ (k, e') :: v)))
| st_opts : forall f f' opts, step (TE f) (TE f') (TE (XOpts f opts)) (TE (XOpts f' opts))
| st_opts_arg : forall f u k e e' v, step (TE e) (TE e') (TE (XOpts f (u ++ (k, e) :: v))) (TE (XOpts f (u ++ (k, e') :: v)))
| st_member : forall a a' x, step (TE a) (TE a') (TE (XMember a x)) (TE (XMember a' x))
| st_index : forall a a' i, step (TE a) (TE a') (TE (XIndex a i)) (TE (XIndex a' i))
| st_index_i : forall a i i', step (TE i) (TE i') (TE (XIndex a (Some i))) (TE (XIndex a (Some i')))
| st_slice : forall a a' i j, step (TE a) (TE a') (TE (XSlice a i j)) (TE (XSlice a' i j))
| st_slice_i : forall a i i' j, step (TE i) (TE i') (TE (XSlice a (Some i) j)) (TE (XSlice a (Some i') j))
| st_slice_j : forall a i j j', step (TE j) (TE j') (TE (XSlice a i (Some j))) (TE (XSlice a i (Some j')))
| st_tuple : forall u e e' v, step (TE e) (TE e') (TE (XTuple (u ++ Some e :: v))) (TE (XTuple (u ++ Some e' :: v)))
| st_array : forall u e e' v, step (TE e) (TE e') (TE (XArray (u ++ e :: v))) (TE (XArray (u ++ e' :: v)))
| st_new : forall t t', step (TE t) (TE t') (TE (XNew t)) (TE (XNew t'))
| st_map_k : forall k k' kn v vn, step (TE k) (TE k') (TE (TMap k kn v vn)) (TE (TMap k' kn v vn))
| st_map_v : forall k kn v v' vn, step (TE v) (TE v') (TE (TMap k kn v vn)) (TE (TMap k kn v' vn))
| st_arr : forall t t' len, step (TE t) (TE t') (TE (TArr t len)) (TE (TArr t' len))
| st_arr_len : forall t e e', step (TE e) (TE e') (TE (TArr t (Some e))) (TE (TArr t (Some e')))
| st_var_type : forall v t', step (TE (sv_type v)) (TE t') (TV v) (TV (with_type v t'))
| st_var_value : forall v e e', sv_value v = Some e -> step (TE e) (TE e') (TV v) (TV (with_value v e'))
| st_exp : forall e e', step (TE e) (TE e') (TS (CExp e)) (TS (CExp e'))
| st_decl : forall u x x' v e, step (TV x) (TV x') (TS (CVar (u ++ Some x :: v) e)) (TS (CVar (u ++ Some x' :: v) e))
| st_decl_value : forall l e e', step (TE e) (TE e') (TS (CVar l (Some e))) (TS (CVar l (Some e')))
| st_block : forall c u s s' v, step (TS s) (TS s') (TS (CBlock c (u ++ s :: v))) (TS (CBlock c (u ++ s' :: v)))
| st_if : forall e e' a b, step (TE e) (TE e') (TS (CIf e a b)) (TS (CIf e' a b))
| st_if_yes : forall e a a' b, step (TS a) (TS a') (TS (CIf e a b)) (TS (CIf e a' b))
| st_if_no : forall e a b b', step (TS b) (TS b') (TS (CIf e a (Some b))) (TS (CIf e a (Some b')))
| st_while : forall e e' s, step (TE e) (TE e') (TS (CWhile e s)) (TS (CWhile e' s))
| st_while_body : forall e s s', step (TS s) (TS s') (TS (CWhile e s)) (TS (CWhile e s'))
| st_do : forall e e' s, step (TE e) (TE e') (TS (CDo s e)) (TS (CDo s e'))
| st_do_body : forall e s s', step (TS s) (TS s') (TS (CDo s e)) (TS (CDo s' e))
| st_for_init : forall i i' e l s, step (TS i) (TS i') (TS (CFor (Some i) e l s)) (TS (CFor (Some i') e l s))
| st_for : forall i e e' l s, step (TE e) (TE e') (TS (CFor i (Some e) l s)) (TS (CFor i (Some e') l s))
| st_for_loop : forall i e l l' s, step (TE l) (TE l') (TS (CFor i e (Some l) s)) (TS (CFor i e (Some l') s))
| st_for_body : forall i e l s s', step (TS s) (TS s') (TS (CFor i e l s)) (TS (CFor i e l s'))
| st_return : forall e e', step (TE e) (TE e') (TS (CReturn (Some e))) (TS (CReturn (Some e')))
| st_emit : forall e e', step (TE e) (TE e') (TS (CEmit e)) (TS (CEmit e'))
| st_revert : forall e e', step (TE e) (TE e') (TS (CRevert e)) (TS (CRevert e'))
| st_member_var : forall v v', step (TV v) (TV v') (TM (MVar v)) (TM (MVar v'))
| st_fun_param : forall f u x x' v, sf_params f = u ++ x :: v -> step (TV x) (TV x') (TM (MFun f)) (TM (MFun (with_params f (u ++ x' :: v))))
| st_fun_modifier : forall f u m a e e' b v, sf_modifiers f = u ++ (m, Some (a ++ e :: b)) :: v ->
    step (TE e) (TE e') (TM (MFun f)) (TM (MFun (with_modifiers f (u ++ (m, Some (a ++ e' :: b)) :: v))))
| st_fun_return : forall f u x x' v, sf_returns f = u ++ x :: v -> step (TV x) (TV x') (TM (MFun f)) (TM (MFun (with_returns f (u ++ x' :: v))))
| st_fun_body : forall f s s', sf_body f = Some s -> step (TS s) (TS s') (TM (MFun f)) (TM (MFun (with_body f s')))
| st_mod_param : forall f u x x' v virtual o b,
    step (TV x) (TV x') (TM (MModifier f (u ++ x :: v) virtual o b)) (TM (MModifier f (u ++ x' :: v) virtual o b))
| st_mod_body : forall f ps virtual o s s',
    step (TS s) (TS s') (TM (MModifier f ps virtual o (Some s))) (TM (MModifier f ps virtual o (Some s')))
| st_event : forall f u x x' v an, step (TV x) (TV x') (TM (MEvent f (u ++ x :: v) an)) (TM (MEvent f (u ++ x' :: v) an))
| st_error : forall f u x x' v, step (TV x) (TV x') (TM (MError f (u ++ x :: v))) (TM (MError f (u ++ x' :: v)))
| st_struct : forall f u x x' v, step (TV x) (TV x') (TM (MStruct f (u ++ x :: v))) (TM (MStruct f (u ++ x' :: v)))
| st_using : forall lib t t' g, step (TE t) (TE t') (TM (MUsing lib (Some t) g)) (TM (MUsing lib (Some t') g))
| st_using_funs : forall l t t' g, step (TE t) (TE t') (TM (MUsingFuns l (Some t) g)) (TM (MUsingFuns l (Some t') g))
| st_base : forall ab kind f u m a e e' b v l,
    step (TE e) (TE e') (TP (PContract ab kind f (u ++ (m, Some (a ++ e :: b)) :: v) l))
                        (TP (PContract ab kind f (u ++ (m, Some (a ++ e' :: b)) :: v) l))
| st_contract : forall ab kind f bases u m m' v,
    step (TM m) (TM m') (TP (PContract ab kind f bases (u ++ m :: v))) (TP (PContract ab kind f bases (u ++ m' :: v)))
| st_outside : forall m m', step (TM m) (TM m') (TP (PMember m)) (TP (PMember m'))
| st_unit : forall u p p' v, step (TP p) (TP p') (TU (u ++ p :: v)) (TU (u ++ p' :: v)).

(** [t'] is [t] with one of its parts, at any depth, changed as [R] says. *)
Inductive edited (R : thing -> thing -> Prop) : thing -> thing -> Prop :=
| ed_here : forall t t', R t t' -> edited R t t'
| ed_inside : forall c c' t t', step c c' t t' -> edited R c c' -> edited R t t'.

(** ** The edits of the mutation operators *)

Definition operators (t : mutation_type) : list string :=
  match t with
  | Generic ArithmeticBinaryOp => ["+"; "-"; "*"; "/"; "%"; "**"]
  | Generic LogicalBinaryOp => ["&&"; "||"]
  | Generic BitwiseBinaryOp => ["&"; "|"; "^"]
  | Generic BitshiftBinaryOp => ["<<"; ">>"]
  | Generic ComparisonBinaryOp => ["=="; "!="; "<"; ">"; "<="; ">="]
  | _ => []
  end.

Definition number (z : Z) : sexp := XLit (show_Z z) None.
Definition truth (b : bool) : sexp := XLit (if b then "true" else "false") None.
Definition negated (e : sexp) : sexp := XPre "!" (XTuple [Some e]).

(** Two elements exchanged. *)
Definition swapped {A} (l l' : list A) : Prop :=
  exists a x b y c, l = a ++ x :: b ++ y :: c /\ l' = a ++ y :: b ++ x :: c.

Definition is_return (s : sstmt) : bool := match s with CReturn _ => true | _ => false end.
Definition is_unchecked (s : sstmt) : bool := match s with CBlock true _ => true | _ => false end.

Inductive sol_edit : mutation_type -> thing -> thing -> Prop :=
| se_binary : forall t op op' a b, In op (operators t) -> In op' (operators t) -> op' <> op ->
    sol_edit t (TE (XBin op a b)) (TE (XBin op' a b))
| se_swap_operands : forall op a b, In op ["-"; "/"; "%"; "**"; ">"; "<"; "<="; ">="; "<<"; ">>"] ->
    sol_edit (Generic SwapOperatorArguments) (TE (XBin op a b)) (TE (XBin op b a))
| se_prefix : forall op op' a, In op ["++"; "--"; "~"] -> In op' ["++"; "--"; "~"] -> op' <> op ->
    sol_edit (Generic UnaryOp) (TE (XPre op a)) (TE (XPre op' a))
| se_postfix : forall op op' a, In op ["++"; "--"] -> In op' ["++"; "--"] -> op' <> op ->
    sol_edit (Generic UnaryOp) (TE (XPost op a)) (TE (XPost op' a))
| se_assign_number : forall op a b z, sol_edit (Generic Assignment) (TE (XAssign op a b)) (TE (XAssign op a (number z)))
| se_assign_truth : forall op a b, sol_edit (Generic Assignment) (TE (XAssign op a b)) (TE (XAssign op a (truth false)))
| se_delete : forall a e b, a ++ b <> [] ->
    sol_edit (Generic DeleteStatement) (TS (CBlock false (a ++ CExp e :: b))) (TS (CBlock false (a ++ b)))
| se_call : forall f args e, In e args -> sol_edit (Generic FunctionCall) (TE (XCall f args)) (TE e)
| se_call_named : forall f args e, In e (map snd args) -> sol_edit (Generic FunctionCall) (TE (XNamed f args)) (TE e)
| se_swap_args : forall f args args', swapped args args' ->
    sol_edit (Generic SwapFunctionArguments) (TE (XCall f args)) (TE (XCall f args'))
| se_swap_named : forall f args args', map fst args' = map fst args -> swapped (map snd args) (map snd args') ->
    sol_edit (Generic SwapFunctionArguments) (TE (XNamed f args)) (TE (XNamed f args'))
| se_if_truth : forall e b a o, sol_edit (Generic IfStatement) (TS (CIf e a o)) (TS (CIf (truth b) a o))
| se_if_not : forall e a o, sol_edit (Generic IfStatement) (TS (CIf e a o)) (TS (CIf (negated e) a o))
| se_integer : forall s u z, sol_edit (Generic Integer) (TE (XLit s u)) (TE (XLit (show_Z z) u))
| se_swap_lines : forall l l' a x b y c, l = a ++ x :: b ++ y :: c -> l' = a ++ y :: b ++ x :: c ->
    is_return x = false -> is_return y = false ->
    sol_edit (Generic SwapLines) (TS (CBlock false l)) (TS (CBlock false l'))
| se_require : forall f e args, sol_edit (Solidity Require) (TE (XCall f (e :: args))) (TE (XCall f (negated e :: args)))
| se_require_named : forall f k e args,
    sol_edit (Solidity Require) (TE (XNamed f ((k, e) :: args))) (TE (XNamed f ((k, negated e) :: args)))
| se_unchecked : forall a s b, is_return s = false -> is_unchecked s = false ->
    sol_edit (Solidity UncheckedBlock) (TS (CBlock false (a ++ s :: b))) (TS (CBlock false (a ++ CBlock true [s] :: b)))
| se_delegate : forall a, sol_edit (Solidity ElimDelegateCall) (TE (XMember a "delegatecall")) (TE (XMember a "call")).

(** [l'] is [l] with one edit of the kind [t]. *)
Definition one_edit (t : mutation_type) (l l' : list stop) : Prop := edited (sol_edit t) (TU l) (TU l').

(** Braces around a statement that is the body of something and not a block. *)
Definition in_braces (s s' : sstmt) : Prop := is_cblock s = false /\ s' = CBlock false [s].
Inductive brace : thing -> thing -> Prop :=
| br_yes : forall e s s' o, in_braces s s' -> brace (TS (CIf e s o)) (TS (CIf e s' o))
| br_no : forall e a s s', in_braces s s' -> brace (TS (CIf e a (Some s))) (TS (CIf e a (Some s')))
| br_while : forall e s s', in_braces s s' -> brace (TS (CWhile e s)) (TS (CWhile e s'))
| br_do : forall e s s', in_braces s s' -> brace (TS (CDo s e)) (TS (CDo s' e))
| br_for : forall i e l s s', in_braces s s' -> brace (TS (CFor i e l s)) (TS (CFor i e l s'))
| br_fun : forall f s s', sf_body f = Some s -> in_braces s s' -> brace (TM (MFun f)) (TM (MFun (with_body f s')))
| br_modifier : forall f ps virtual o s s', in_braces s s' ->
    brace (TM (MModifier f ps virtual o (Some s))) (TM (MModifier f ps virtual o (Some s'))).

(** The same program, or with one more pair of braces. *)
Definition same_but_braces (l l' : list stop) : Prop := l' = l \/ edited brace (TU l) (TU l').

(** ** Trees of a program and nothing else *)

(** The nodes an edit is about. *)
Definition active : list string :=
  ["BinaryOperation"; "UnaryOperation"; "Assignment"; "FunctionCall"; "Literal"; "MemberAccess"; "Block"; "IfStatement";
   "DoWhileStatement"; "ForStatement"; "WhileStatement"; "FunctionDefinition"; "ModifierDefinition"; "TryCatchClause"; "UncheckedBlock"; "ContractDefinition"].

(** The keys under which the nodes of each type keep their parts. *)
Definition part_keys (ty : string) : list string :=
  match assoc ty
    [ ("BinaryOperation", ["leftExpression"; "rightExpression"]); ("UnaryOperation", ["subExpression"]);
      ("Conditional", ["condition"; "trueExpression"; "falseExpression"]); ("Assignment", ["leftHandSide"; "rightHandSide"]);
      ("FunctionCall", ["expression"; "arguments"]); ("FunctionCallOptions", ["expression"; "options"]);
      ("MemberAccess", ["expression"]); ("IndexAccess", ["baseExpression"; "indexExpression"]);
      ("IndexRangeAccess", ["baseExpression"; "startExpression"; "endExpression"]); ("TupleExpression", ["components"]);
      ("NewExpression", ["typeName"]); ("Mapping", ["keyType"; "valueType"]); ("ArrayTypeName", ["baseType"; "length"]);
      ("VariableDeclaration", ["typeName"; "value"]); ("ParameterList", ["parameters"]); ("ExpressionStatement", ["expression"]);
      ("VariableDeclarationStatement", ["declarations"; "initialValue"]); ("Block", ["statements"]);
      ("UncheckedBlock", ["statements"]); ("IfStatement", ["condition"; "trueBody"; "falseBody"]);
      ("WhileStatement", ["condition"; "body"]); ("DoWhileStatement", ["condition"; "body"]);
      ("ForStatement", ["initializationExpression"; "condition"; "loopExpression"; "body"]); ("Return", ["expression"]);
      ("EmitStatement", ["eventCall"]); ("RevertStatement", ["errorCall"]);
      ("FunctionDefinition", ["parameters"; "modifiers"; "returnParameters"; "body"]); ("ModifierInvocation", ["arguments"]);
      ("ModifierDefinition", ["parameters"; "body"]); ("EventDefinition", ["parameters"]); ("ErrorDefinition", ["parameters"]);
      ("StructDefinition", ["members"]); ("UsingForDirective", ["typeName"]);
      ("ContractDefinition", ["baseContracts"; "nodes"]); ("InheritanceSpecifier", ["arguments"]); ("SourceUnit", ["nodes"]) ] with
  | Some l => l
  | None => []
  end.

Definition node_type (o : list (string * json)) : string :=
  match assoc "nodeType" o with Some (JStr s) => s | _ => "" end.

Fixpoint once (l : list string) : bool := match l with [] => true | k :: l => negb (smem k l) && once l end.

(** No active node anywhere in it, and no key twice. *)
Fixpoint inert (j : json) : bool :=
  match j with
  | JObj o =>
      negb (smem (node_type o) active) && once (map fst o) &&
      (fix go (r : list (string * json)) := match r with [] => true | (_, v) :: r => inert v && go r end) o
  | JArr l => forallb inert l
  | _ => true
  end.

(** Every active node is kept under one of the keys of the node around it, and
    no key occurs twice.  This leaves out "try", whose parts have no keys here. *)
Fixpoint lean (j : json) : bool :=
  match j with
  | JObj o =>
      once (map fst o) &&
      (fix go (r : list (string * json)) :=
         match r with
         | [] => true
         | (k, v) :: r => (inert v || (smem k (part_keys (node_type o)) && lean v)) && go r
         end) o
  | JArr l => forallb lean l
  | _ => true
  end.
