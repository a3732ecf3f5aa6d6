(** The Solidity node printers: they ignore bookkeeping, they need only the
    printers of their sub-nodes, and they are balanced. *)
From Coq Require Import String Ascii List NArith ZArith Arith Bool Lia.
From Verif Require Import Base Json JsonFacts Printer SpecPrinter SolPrinter EmitFacts.
Import ListNotations.
Open Scope string_scope.
Open Scope list_scope.

Notation skeys := solidity_bookkeeping.
Notation ssim := (sim skeys).
Notation sunder := (under skeys).

Definition sresp (p : scode) : Prop := forall c n n' r r',
  ssim n n' ->
  (forall c x y, sunder (jdepth n) x y -> r c x = r' c y) ->
  (forall c v, scalar v -> r c v = []) -> (forall c v, scalar v -> r' c v = []) ->
  p c r n = p c r' n'.

Ltac sstart := intros c n n' r r' Hs Hr Hn Hn'.
Ltac shelpers :=
  unfold s_documentation, s_name, tok_of, s_operator, s_arguments, s_returns, sflag,
    s_components, is_block, spaced_tok.

Lemma resp_ArrayTypeName : sresp s_ArrayTypeName.
Proof. sstart. unfold s_ArrayTypeName. shelpers. par. Qed.
Lemma resp_Assignment : sresp s_Assignment.
Proof. sstart. unfold s_Assignment. shelpers. par. Qed.
Lemma resp_BinaryOperation : sresp s_BinaryOperation.
Proof. sstart. unfold s_BinaryOperation. shelpers. par. Qed.
Lemma resp_Block : sresp s_Block.
Proof.
  sstart. unfold s_Block, s_statements. shelpers. par.
  destruct H as [| x y l l' [S1 D1] H]; [ reflexivity |].
  pose proof H as H0. destruct H0 as [| x2 y2 l l' U2 H0]; [ par |].
  assert (F : Forall2 (sunder (jdepth n)) (x :: x2 :: l) (y :: y2 :: l')).
  { constructor; [ split; assumption | assumption ]. }
  apply app_par; [ reflexivity |]. apply app_par; [| reflexivity ].
  eapply each_par; [ exact F | under_intros; par | reflexivity ].
Qed.
Lemma resp_keyword_semi : forall s, sresp (s_keyword_semi s).
Proof. intro s. sstart. reflexivity. Qed.
Lemma resp_Comment : sresp s_Comment.
Proof. sstart. unfold s_Comment. shelpers. par. Qed.
Lemma resp_Conditional : sresp s_Conditional.
Proof. sstart. unfold s_Conditional. shelpers. par. Qed.
Lemma resp_ContractDefinition : sresp s_ContractDefinition.
Proof. sstart. unfold s_ContractDefinition. shelpers. par. Qed.
Lemma resp_DoWhileStatement : sresp s_DoWhileStatement.
Proof. sstart. unfold s_DoWhileStatement. shelpers. par. Qed.
Lemma resp_ElementaryTypeName : sresp s_ElementaryTypeName.
Proof. sstart. unfold s_ElementaryTypeName. shelpers. par. Qed.
Lemma resp_ElementaryTypeNameExpression : sresp s_ElementaryTypeNameExpression.
Proof.
  sstart. unfold s_ElementaryTypeNameExpression. shelpers. par.
  keys_eq. destruct (get_str y "stateMutability"); [ reflexivity |]. par.
Qed.
Lemma resp_EmitStatement : sresp s_EmitStatement.
Proof. sstart. unfold s_EmitStatement. shelpers. par. Qed.
Lemma resp_EnumDefinition : sresp s_EnumDefinition.
Proof. sstart. unfold s_EnumDefinition. shelpers. par. Qed.
Lemma resp_Identifier : sresp s_Identifier.
Proof. sstart. unfold s_Identifier. shelpers. par. Qed.
Lemma resp_ErrorDefinition : sresp s_ErrorDefinition.
Proof. sstart. unfold s_ErrorDefinition. shelpers. par. Qed.
Lemma resp_EventDefinition : sresp s_EventDefinition.
Proof. sstart. unfold s_EventDefinition. shelpers. par. Qed.
Lemma resp_ExpressionStatement : sresp s_ExpressionStatement.
Proof. sstart. unfold s_ExpressionStatement. shelpers. par. Qed.
Lemma resp_ForStatement : sresp s_ForStatement.
Proof. sstart. unfold s_ForStatement. shelpers. par. Qed.
Lemma named_par : forall d f f' names names' args args',
  Forall2 (sunder d) names names' -> Forall2 (sunder d) args args' ->
  (forall x y, sunder d x y -> f x = f' y) ->
  s_named f names args = s_named f' names' args'.
Proof.
  intros d f f' names names' args args' H Ha Hf. revert args args' Ha.
  induction H as [| x y l l' [Sx Dx] H IH]; intros args args' Ha; [ destruct Ha; reflexivity |].
  destruct Ha as [| u v args args' Huv Ha]; [ reflexivity |]. cbn [s_named].
  rewrite (sim_as_str skeys x y Sx), (Hf u v Huv), (IH _ _ Ha), (not_empty_par _ _ _ _ H).
  reflexivity.
Qed.
Lemma options_par : forall d f f' names names' args args',
  Forall2 (sunder d) names names' -> Forall2 (sunder d) args args' ->
  (forall x y, sunder d x y -> f x = f' y) ->
  s_options f names args = s_options f' names' args'.
Proof.
  intros d f f' names names' args args' H Ha Hf. revert args args' Ha.
  induction H as [| x y l l' [Sx Dx] H IH]; intros args args' Ha; [ destruct Ha; reflexivity |].
  destruct Ha as [| u v args args' Huv Ha]; [ reflexivity |]. cbn [s_options].
  rewrite (sim_as_str skeys x y Sx), (Hf u v Huv), (IH _ _ Ha), (not_empty_par _ _ _ _ H).
  reflexivity.
Qed.
Lemma resp_FunctionCall : sresp s_FunctionCall.
Proof.
  sstart. unfold s_FunctionCall. shelpers. par.
  destruct (get_array_under skeys n n' "names" Hs eq_refl) as [| names names' Hn2]; [ par |].
  keys_eq. destruct (not_empty names'); [| par ]. par.
  eapply named_par; [ eassumption | eassumption |]. intros; apply Hr; assumption.
Qed.
Lemma resp_FunctionCallOptions : sresp s_FunctionCallOptions.
Proof.
  sstart. unfold s_FunctionCallOptions. shelpers. par.
  eapply options_par; [ eassumption | eassumption |]. intros; apply Hr; assumption.
Qed.
Lemma resp_FunctionDefinition : sresp s_FunctionDefinition.
Proof. sstart. unfold s_FunctionDefinition. shelpers. par. Qed.
Lemma resp_FunctionTypeName : sresp s_FunctionTypeName.
Proof. sstart. unfold s_FunctionTypeName. shelpers. par. Qed.
Lemma resp_IfStatement : sresp s_IfStatement.
Proof. sstart. unfold s_IfStatement. shelpers. par. Qed.
Lemma resp_ImportDirective : sresp s_ImportDirective.
Proof.
  sstart. unfold s_ImportDirective. cbv zeta.
  destruct (arr_under skeys n n' "symbolAliases" Hs eq_refl) as [| l l' H];
    unfold s_alias; par.
Qed.
Lemma resp_IndexAccess : sresp s_IndexAccess.
Proof. sstart. unfold s_IndexAccess. shelpers. par. Qed.
Lemma resp_InheritanceSpecifier : sresp s_InheritanceSpecifier.
Proof. sstart. unfold s_InheritanceSpecifier. shelpers. par. Qed.
Lemma resp_InlineAssembly : sresp s_InlineAssembly.
Proof. sstart. unfold s_InlineAssembly. shelpers. par. Qed.
Lemma resp_Literal : sresp s_Literal.
Proof. sstart. unfold s_Literal. shelpers. par. Qed.
Lemma resp_Mapping : sresp s_Mapping.
Proof. sstart. unfold s_Mapping. shelpers. par. Qed.
Lemma resp_MemberAccess : sresp s_MemberAccess.
Proof. sstart. unfold s_MemberAccess. shelpers. par. Qed.
Lemma resp_ModifierDefinition : sresp s_ModifierDefinition.
Proof. sstart. unfold s_ModifierDefinition. shelpers. par. Qed.
Lemma resp_ModifierInvocation : sresp s_ModifierInvocation.
Proof. sstart. unfold s_ModifierInvocation. shelpers. par. Qed.
Lemma resp_NewExpression : sresp s_NewExpression.
Proof. sstart. unfold s_NewExpression. shelpers. par. Qed.
Lemma resp_OverrideSpecifier : sresp s_OverrideSpecifier.
Proof. sstart. unfold s_OverrideSpecifier. shelpers. par. Qed.
Lemma resp_ParameterList : sresp s_ParameterList.
Proof. sstart. unfold s_ParameterList. shelpers. par. Qed.
Lemma pragma_par : forall d l l' prev,
  Forall2 (sunder d) l l' -> s_pragma prev l = s_pragma prev l'.
Proof.
  intros d l l' prev H. revert prev. induction H as [| x y l l' [S D] H IH]; intro prev; [ reflexivity |].
  cbn [s_pragma]. rewrite (sim_as_str skeys x y S), (not_empty_par _ _ _ _ H).
  destruct (as_str y); rewrite IH; reflexivity.
Qed.
Lemma resp_PragmaDirective : sresp s_PragmaDirective.
Proof.
  sstart. unfold s_PragmaDirective. par. eapply pragma_par. eassumption.
Qed.
Lemma resp_Return : sresp s_Return.
Proof. sstart. unfold s_Return. shelpers. par. Qed.
Lemma resp_RevertStatement : sresp s_RevertStatement.
Proof. sstart. unfold s_RevertStatement. shelpers. par. Qed.
Lemma resp_SourceUnit : sresp s_SourceUnit.
Proof. sstart. unfold s_SourceUnit. shelpers. par. Qed.
Lemma resp_StructDefinition : sresp s_StructDefinition.
Proof. sstart. unfold s_StructDefinition. shelpers. par. Qed.
Lemma resp_StructuredDocumentation : sresp s_StructuredDocumentation.
Proof. sstart. unfold s_StructuredDocumentation. shelpers. par. Qed.
Lemma resp_TryCatchClause : sresp s_TryCatchClause.
Proof. sstart. unfold s_TryCatchClause. shelpers. par. Qed.
Lemma resp_TryStatement : sresp s_TryStatement.
Proof. sstart. unfold s_TryStatement. shelpers. par. Qed.
Lemma resp_TupleExpression : sresp s_TupleExpression.
Proof. sstart. unfold s_TupleExpression. shelpers. par. Qed.
Lemma resp_UnaryOperation : sresp s_UnaryOperation.
Proof. sstart. unfold s_UnaryOperation. shelpers. par. Qed.
Lemma resp_UserDefinedTypeName : sresp s_UserDefinedTypeName.
Proof.
  sstart. unfold s_UserDefinedTypeName. shelpers.
  destruct (sim_oget skeys n n' "pathNode" Hs eq_refl); par.
Qed.
Lemma resp_UserDefinedValueTypeDefinition : sresp s_UserDefinedValueTypeDefinition.
Proof. sstart. unfold s_UserDefinedValueTypeDefinition. shelpers. par. Qed.
Lemma resp_UsingForDirective : sresp s_UsingForDirective.
Proof.
  sstart. unfold s_UsingForDirective, s_using_item. shelpers. par.
Qed.
Lemma resp_VariableDeclaration : sresp s_VariableDeclaration.
Proof. sstart. unfold s_VariableDeclaration. shelpers. par. Qed.
Lemma resp_VariableDeclarationStatement : sresp s_VariableDeclarationStatement.
Proof. sstart. unfold s_VariableDeclarationStatement. shelpers. par. Qed.
Lemma resp_WhileStatement : sresp s_WhileStatement.
Proof. sstart. unfold s_WhileStatement. shelpers. par. Qed.
Lemma resp_yul_assign : forall k, seen skeys k = true -> sresp (s_yul_assign k).
Proof.
  intros k Hk. sstart. unfold s_yul_assign. par.
  eapply opt_arr_par; [ eassumption | exact Hk |]. intros. par.
Qed.
Lemma resp_keyword : forall s, sresp (s_keyword s).
Proof. intro s. sstart. reflexivity. Qed.
Lemma resp_YulCase : sresp s_YulCase.
Proof.
  sstart. unfold s_YulCase. par.
  assert (E : r c x = r' c y) by (apply Hr; split; assumption).
  inversion S; subst; cbn; try reflexivity; rewrite E; reflexivity.
Qed.
Lemma resp_YulForLoop : sresp s_YulForLoop.
Proof. sstart. unfold s_YulForLoop. shelpers. par. Qed.
Lemma resp_YulFunctionCall : sresp s_YulFunctionCall.
Proof. sstart. unfold s_YulFunctionCall. shelpers. par. Qed.
Lemma resp_YulFunctionDefinition : sresp s_YulFunctionDefinition.
Proof. sstart. unfold s_YulFunctionDefinition. shelpers. par. Qed.
Lemma resp_YulIf : sresp s_YulIf.
Proof. sstart. unfold s_YulIf. shelpers. par. Qed.
Lemma resp_YulLiteral : sresp s_YulLiteral.
Proof. sstart. unfold s_YulLiteral. shelpers. par. Qed.
Lemma resp_YulSwitch : sresp s_YulSwitch.
Proof. sstart. unfold s_YulSwitch. shelpers. par. Qed.
Lemma resp_YulVariableDeclaration : sresp s_YulVariableDeclaration.
Proof. sstart. unfold s_YulVariableDeclaration. apply app_par; [ reflexivity |].
  apply (resp_yul_assign "variables"); auto. Qed.

Lemma resp_dummy : sresp s_dummy.
Proof. sstart. unfold s_dummy. eapply children_par; try eassumption; auto. Qed.

Lemma sol_table_resp : Forall (fun p => sresp (snd p)) sol_table.
Proof.
  unfold sol_table.
  repeat (constructor;
    [ cbn [snd];
      first [ apply resp_keyword_semi | apply resp_keyword
            | apply resp_yul_assign; reflexivity
            | exact resp_ArrayTypeName
            | exact resp_Assignment
            | exact resp_BinaryOperation
            | exact resp_Block
            | exact resp_Comment
            | exact resp_Conditional
            | exact resp_ContractDefinition
            | exact resp_DoWhileStatement
            | exact resp_ElementaryTypeName
            | exact resp_ElementaryTypeNameExpression
            | exact resp_EmitStatement
            | exact resp_EnumDefinition
            | exact resp_Identifier
            | exact resp_ErrorDefinition
            | exact resp_EventDefinition
            | exact resp_ExpressionStatement
            | exact resp_ForStatement
            | exact resp_FunctionCall
            | exact resp_FunctionCallOptions
            | exact resp_FunctionDefinition
            | exact resp_FunctionTypeName
            | exact resp_IfStatement
            | exact resp_ImportDirective
            | exact resp_IndexAccess
            | exact resp_InheritanceSpecifier
            | exact resp_InlineAssembly
            | exact resp_Literal
            | exact resp_Mapping
            | exact resp_MemberAccess
            | exact resp_ModifierDefinition
            | exact resp_ModifierInvocation
            | exact resp_NewExpression
            | exact resp_OverrideSpecifier
            | exact resp_ParameterList
            | exact resp_PragmaDirective
            | exact resp_Return
            | exact resp_RevertStatement
            | exact resp_SourceUnit
            | exact resp_StructDefinition
            | exact resp_StructuredDocumentation
            | exact resp_TryCatchClause
            | exact resp_TryStatement
            | exact resp_TupleExpression
            | exact resp_UnaryOperation
            | exact resp_UserDefinedTypeName
            | exact resp_UserDefinedValueTypeDefinition
            | exact resp_UsingForDirective
            | exact resp_VariableDeclaration
            | exact resp_VariableDeclarationStatement
            | exact resp_WhileStatement
            | exact resp_YulCase
            | exact resp_YulForLoop
            | exact resp_YulFunctionCall
            | exact resp_YulFunctionDefinition
            | exact resp_YulIf
            | exact resp_YulLiteral
            | exact resp_YulSwitch
            | exact resp_YulVariableDeclaration ] |]).
  constructor.
Qed.

Lemma sol_printer_resp : forall n, sresp (sol_printer_for n).
Proof.
  intro n. unfold sol_printer_for.
  destruct (get_str n "nodeType") as [ty |]; [| exact resp_dummy ].
  destruct (assoc ty sol_table) as [p |] eqn:E; [| exact resp_dummy ].
  exact (assoc_Forall _ sresp ty sol_table p sol_table_resp E).
Qed.

Lemma sol_printer_same : forall n n', ssim n n' -> sol_printer_for n = sol_printer_for n'.
Proof.
  intros n n' H. unfold sol_printer_for. rewrite (sim_get_str skeys n n' "nodeType" H eq_refl).
  reflexivity.
Qed.

Lemma sol_emit_scalar : forall k c v, scalar v -> sol_emit_at k c v = [].
Proof. intros [| k] c v H; [ reflexivity |]. destruct v; try reflexivity; destruct H. Qed.

(** Enough fuel is enough, and bookkeeping does not matter. *)
Lemma sol_emit_par : forall d k k' c n n',
  sunder d n n' -> d <= k -> d <= k' -> sol_emit_at k c n = sol_emit_at k' c n'.
Proof.
  induction d as [d IH] using lt_wf_ind. intros k k' c n n' [Hs Hd] Hk Hk'.
  destruct k as [| k]; [ lia |]. destruct k' as [| k']; [ lia |]. cbn [sol_emit_at].
  rewrite <- (sol_printer_same n n' Hs).
  apply sol_printer_resp; [ exact Hs | | |].
  - intros c0 x y Hu. apply (IH (jdepth n)); [ exact Hd | exact Hu | lia | lia ].
  - intros; apply sol_emit_scalar; assumption.
  - intros; apply sol_emit_scalar; assumption.
Qed.

(** ** The equation of the printer *)

Lemma sol_emit_ignores : forall c n n',
  same_but skeys n n' -> sol_emit c n = sol_emit c n'.
Proof.
  intros c n n' H. unfold sol_emit. rewrite <- (sim_jdepth skeys n n' H).
  apply (sol_emit_par (S (jdepth n))); [ split; [ exact H | lia ] | lia | lia ].
Qed.

Lemma sol_emit_unfold : forall c n, sol_emit c n = sol_printer_for n c sol_emit n.
Proof.
  intros c n. unfold sol_emit at 1. cbn [sol_emit_at].
  apply sol_printer_resp.
  - apply sim_refl.
  - intros c0 x y [Hs Hd]. unfold sol_emit. rewrite <- (sim_jdepth skeys x y Hs).
    apply (sol_emit_par (S (jdepth x))); [ split; [ exact Hs | lia ] | lia | lia ].
  - intros; apply sol_emit_scalar; assumption.
  - intros; apply sol_emit_scalar; assumption.
Qed.

(** ** Balance *)

Definition sbal (p : scode) : Prop := forall c r n,
  (forall c v, balanced (r c v)) -> balanced (p c r n).

Lemma bal_pragma : forall l prev, balanced (s_pragma prev l).
Proof.
  induction l as [| v l IH]; intro prev; [ apply bal_nil |]. cbn [s_pragma]. cbv zeta. bal.
Qed.
Lemma bal_named : forall f names args, (forall v, balanced (f v)) -> balanced (s_named f names args).
Proof.
  intros f names. induction names as [| x names IH]; intros args H; [ apply bal_nil |].
  destruct args as [| a args]; [ apply bal_nil |]. cbn [s_named]. bal.
Qed.
Lemma bal_options : forall f names args, (forall v, balanced (f v)) -> balanced (s_options f names args).
Proof.
  intros f names. induction names as [| x names IH]; intros args H; [ apply bal_nil |].
  destruct args as [| a args]; [ apply bal_nil |]. cbn [s_options]. bal.
Qed.
Lemma bal_statements : forall f b n, (forall v, balanced (f v)) -> balanced (s_statements f b n).
Proof. intros f b n H. unfold s_statements. bal. Qed.
#[local] Hint Resolve bal_pragma bal_named bal_options bal_statements : balance.

Lemma sol_table_bal : Forall (fun p => sbal (snd p)) sol_table.
Proof.
  unfold sol_table.
  repeat (constructor; [ cbn [snd]; intros c r n H |]); [ .. | constructor ].
  all: match goal with
       | |- balanced (s_keyword_semi _ _ _ _) => unfold s_keyword_semi
       | |- balanced (s_keyword _ _ _ _) => unfold s_keyword
       | |- balanced (s_yul_assign _ _ _ _) => unfold s_yul_assign
       | |- balanced (?p _ _ _) => unfold p
       end; unfold s_yul_assign, s_using_item, s_alias, s_close_block; shelpers; bal.
Qed.

Lemma sol_printer_bal : forall n, sbal (sol_printer_for n).
Proof.
  intro n. unfold sol_printer_for.
  destruct (get_str n "nodeType") as [ty |]; [ destruct (assoc ty sol_table) as [p |] eqn:E |].
  1: exact (assoc_Forall _ sbal ty sol_table p sol_table_bal E).
  all: intros c r m H; unfold s_dummy; bal.
Qed.

Lemma sol_emit_balanced : forall c n, balanced (sol_emit c n).
Proof.
  intros c n. unfold sol_emit. generalize (S (jdepth n)). intro k. revert c n.
  induction k as [| k IH]; intros c n; [ apply bal_nil |].
  cbn [sol_emit_at]. apply sol_printer_bal. exact IH.
Qed.
