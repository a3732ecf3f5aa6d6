(** The Solidity node printers print each sub-node in one place. *)
From Coq Require Import String Ascii List NArith ZArith Arith Bool Lia.
From Verif Require Import Base Json JsonFacts Printer SolPrinter SpecTree SpecPrinter SpecLocal SpecSolLocal EmitFacts SolEmit LocalFacts.
Import ListNotations.
Open Scope string_scope.
Open Scope list_scope.

Section Local.
Variables x x' : json.
Hypothesis H_both : both x x'.
Hypothesis H_alike : alike_for_parent x x'.

Notation D := (dif sol_inspected (fun _ => True) x x').
Notation Q := (changed_at sol_emit x x').

Definition slocal (p : scode) : Prop := forall c n n' k v v' b,
  only k v v' n n' -> D b v v' -> (b = false -> ~ In k sol_inspected) ->
  (forall c u u' b, D b u u' -> jdepth u <= jdepth v -> Q (sol_emit c u) (sol_emit c u')) ->
  Q (p c sol_emit n) (p c sol_emit n').

Lemma dif_type : forall b u u' ty, D b u u' -> In ty ["Block"; "VariableDeclaration"] ->
  match get_str u "nodeType" with
  | Some s => exists s', get_str u' "nodeType" = Some s' /\ (s =?s ty) = (s' =?s ty)
  | None => get_str u' "nodeType" = None
  end.
Proof.
  intros b u u' ty H I. destruct b.
  - rewrite (dif_get_str _ _ _ _ _ _ "nodeType" H_both H eq_refl). destruct (get_str u' "nodeType"); eauto.
  - inversion H; subst.
    + destruct H_alike as (s & s' & -> & -> & H1 & H2). exists s'. split; [reflexivity|].
      destruct I as [<-|[<-|[]]]; destruct (String.eqb_spec s "Block"), (String.eqb_spec s' "Block"), (String.eqb_spec s "VariableDeclaration"), (String.eqb_spec s' "VariableDeclaration"); intuition congruence.
    + reflexivity.
Qed.

(** A body: what is printed around it depends only on its being a block. *)
Lemma Q_is_block : forall b u u' y y' z z', D b u u' -> Q y y' -> Q z z' -> Q (is_block u y z) (is_block u' y' z').
Proof.
  intros b u u' y y' z z' H Hy Hz. unfold is_block. pose proof (dif_type b u u' "Block" H (or_introl eq_refl)) as T.
  destruct (get_str u "nodeType") as [s|]; [destruct T as (s' & -> & T)|rewrite T; apply Not_shown]. cbn [opt]. rewrite T.
  now destruct (s' =?s "Block").
Qed.

Lemma member_end : forall b u u', D b u u' ->
  opt (get_str u "nodeType") (fun ty => when (ty =?s "VariableDeclaration") [Tok ";"]) =
  opt (get_str u' "nodeType") (fun ty => when (ty =?s "VariableDeclaration") [Tok ";"]).
Proof.
  intros b u u' H. pose proof (dif_type b u u' "VariableDeclaration" H (or_intror (or_introl eq_refl))) as T.
  destruct (get_str u "nodeType") as [s|]; [destruct T as (s' & -> & T)|now rewrite T]. cbn [opt]. now rewrite T.
Qed.

Ltac start := intros c n n' k v v' b O HD HK IH.
Ltac reads :=
  unfold s_documentation, s_name, tok_of, s_operator, s_arguments, s_returns, sflag, s_components, spaced_tok, sub, arr_of;
  unfold get_str, get_bool, get_array; cbv zeta; rewrite ?kget_plain by reflexivity.

(** All keys read from the node: they agree, or one of them is the changed one. *)
Ltac split_keys :=
  repeat match goal with
  | O : only ?k ?v ?v' ?n ?n' |- context [oget ?n ?s] =>
      is_var k; let E := fresh "E" in
      destruct (O s) as [->|(E & -> & ->)]; [|subst k]
  | O : only (String ?a ?t) ?v ?v' ?n ?n' |- context [oget ?n ?s] =>
      let E := fresh "E" in destruct (O s) as [->|(E & _ & _)]; [|discriminate E]
  end.

Ltac scalars HD :=
  destruct (dif_as_str _ _ _ _ _ _ _ H_both HD) as (?S1 & ?S2);
  destruct (dif_as_bool _ _ _ _ _ _ _ H_both HD) as (?B1 & ?B2);
  rewrite ?S1, ?S2, ?B1, ?B2.

Ltac arrays HD :=
  try match goal with
  | |- context [as_array ?v] =>
      let l1 := fresh "l1" in let u := fresh "u" in let u' := fresh "u'" in let l2 := fresh "l2" in
      let A := fresh "A" in let A' := fresh "A'" in let DU := fresh "DU" in let LT := fresh "LT" in
      destruct (dif_as_array _ _ _ _ _ _ _ H_both HD) as [(A & A')|(l1 & u & u' & l2 & A & A' & DU & LT)];
      rewrite ?A, ?A'
  end.

Ltac walk :=
  repeat first
  [ progress cbn [opt]
  | match goal with
    | |- changed_at _ _ _ ?a ?a => apply Not_shown
    | |- changed_at _ _ _ (?a ++ _) (?a ++ _) => apply Q_left
    | |- changed_at _ _ _ (_ ++ ?b) (_ ++ ?b) => apply Q_right
    | |- changed_at _ _ _ (?a :: _) (?a :: _) => apply Q_cons
    | |- changed_at _ _ _ (when ?c _) (when ?c _) => apply Q_when
    | |- changed_at _ _ _ (each _ _ (_ ++ _ :: _)) _ => apply Q_each; [cbn beta|try reflexivity]
    | |- changed_at _ _ _ (commas _ (_ ++ _ :: _)) _ => apply Q_commas
    | |- changed_at _ _ _ (flat_map _ (_ ++ _ :: _)) _ => apply Q_flat_map
    | |- changed_at _ _ _ (is_block _ _ _) _ => eapply Q_is_block; [eassumption| |]
    | IH : forall c u u' b, dif _ _ _ _ b u u' -> _ |- changed_at _ _ _ (sol_emit ?c ?u) (sol_emit ?c ?u') =>
        eapply IH; [eassumption|lia]
    end
  | progress rewrite ?not_empty_mid
  | progress cbn [when] ].

Ltac local :=
  start; reads; split_keys; [try apply Not_shown | ..];
  repeat match goal with HD : dif _ _ _ _ _ ?v ?v' |- context [as_str ?v] => scalars HD | HD : dif _ _ _ _ _ ?v ?v' |- context [as_bool ?v] => scalars HD end;
  try match goal with HD : dif _ _ _ _ _ ?v ?v' |- context [as_array ?v] => arrays HD end;
  walk.

(** Where the parent looks into the node: then the change is deeper. *)
Lemma deeper : forall b k, (b = false -> ~ In k sol_inspected) -> In k sol_inspected -> b = true.
Proof. intros [] k H I; [reflexivity|]. now destruct (H eq_refl). Qed.

Ltac deep := match goal with HK : ?b = false -> ~ In ?k _ |- _ =>
  assert (b = true) by (apply (deeper b k HK); cbn; tauto); subst b; clear HK end.

Lemma Q_returns : forall v v' f f', D true v v' -> Q f f' ->
  Q (opt (get_array v "parameters") (fun l => when (not_empty l) f)) (opt (get_array v' "parameters") (fun l => when (not_empty l) f')).
Proof.
  intros v v' f f' H F. destruct (dif_only _ _ _ _ _ _ H) as (k & u & u' & b & O & E & _).
  unfold get_array. rewrite !kget_plain by reflexivity.
  destruct (O "parameters") as [->|(-> & -> & ->)].
  - destruct (match oget v' "parameters" with Some w => as_array w | None => None end); cbn [opt]; [|apply Not_shown]. now apply Q_when.
  - destruct (dif_as_array _ _ _ _ _ _ _ H_both E) as [(-> & ->)|(l1 & w & w' & l2 & -> & -> & _ & _)]; cbn [opt]; [apply Not_shown|].
    rewrite !not_empty_mid. exact F.
Qed.

Lemma not_empty_two : forall A l1 (u : A) y l2, exists a b l, l1 ++ u :: y :: l2 = a :: b :: l.
Proof. intros A [|z [|z2 l1]] u y l2; cbn; eauto. Qed.

Lemma Q_statements : forall (f : json -> list cmd) (single : bool) l1 u u' l2, Q (f u) (f u') ->
  let s l := match l with
    | [] => []
    | [x] => if single then Space :: f x ++ [Space]
             else [Inc; Newline; Indent] ++ f x ++ [Dec; Newline; Indent]
    | _ => [Inc; Newline] ++ each (fun x => Indent :: f x) (fun _ => [Newline]) l ++
           [Dec; Newline; Indent]
    end in
  Q (s (l1 ++ u :: l2)) (s (l1 ++ u' :: l2)).
Proof.
  intros f single l1 u u' l2 F s.
  assert (M : Q (each (fun x => Indent :: f x) (fun _ => [Newline]) (l1 ++ u :: l2))
                (each (fun x => Indent :: f x) (fun _ => [Newline]) (l1 ++ u' :: l2)))
    by (apply Q_each; [now apply Q_cons|reflexivity]).
  destruct l1 as [|y l1]; [destruct l2 as [|z l2]|destruct l1 as [|y2 l1]]; cbn [app] in *; unfold s.
  - destruct single; repeat apply Q_cons; apply Q_right, F.
  - do 2 apply Q_cons. apply Q_right, M.
  - do 2 apply Q_cons. apply Q_right, M.
  - do 2 apply Q_cons. apply Q_right, M.
Qed.

Lemma Q_named_args : forall f names l1 u u' l2, Q (f u) (f u') -> Q (s_named f names (l1 ++ u :: l2)) (s_named f names (l1 ++ u' :: l2)).
Proof.
  intros f. induction names as [|y names IH]; intros l1 u u' l2 F; [destruct l1; apply Not_shown|].
  destruct l1 as [|a l1]; cbn [app s_named]; (destruct (as_str y); [|apply Not_shown]).
  - repeat apply Q_cons. apply Q_right, F.
  - repeat apply Q_cons. apply Q_left, Q_left, IH, F.
Qed.
Lemma named_names : forall f b l1 u u' l2 args, D b u u' -> s_named f (l1 ++ u :: l2) args = s_named f (l1 ++ u' :: l2) args.
Proof.
  intros f b. induction l1 as [|a l1 IH]; intros u u' l2 args H; destruct args as [|z args]; cbn [app s_named]; try reflexivity.
  - destruct (dif_as_str _ _ _ _ _ _ _ H_both H) as (-> & ->). reflexivity.
  - rewrite (IH u u' l2 args H), !not_empty_mid. reflexivity.
Qed.
Lemma Q_option_args : forall f names l1 u u' l2, Q (f u) (f u') -> Q (s_options f names (l1 ++ u :: l2)) (s_options f names (l1 ++ u' :: l2)).
Proof.
  intros f. induction names as [|y names IH]; intros l1 u u' l2 F; [destruct l1; apply Not_shown|].
  destruct l1 as [|a l1]; cbn [app s_options]; (destruct (as_str y); [|apply Not_shown]).
  - repeat apply Q_cons. apply Q_right, F.
  - repeat apply Q_cons. apply Q_left, Q_left, IH, F.
Qed.
Lemma option_names : forall f b l1 u u' l2 args, D b u u' -> s_options f (l1 ++ u :: l2) args = s_options f (l1 ++ u' :: l2) args.
Proof.
  intros f b. induction l1 as [|a l1 IH]; intros u u' l2 args H; destruct args as [|z args]; cbn [app s_options]; try reflexivity.
  - destruct (dif_as_str _ _ _ _ _ _ _ H_both H) as (-> & ->). reflexivity.
  - rewrite (IH u u' l2 args H), !not_empty_mid. reflexivity.
Qed.
Lemma pragma_words : forall b l1 u u' l2 prev, D b u u' -> s_pragma prev (l1 ++ u :: l2) = s_pragma prev (l1 ++ u' :: l2).
Proof.
  intros b. induction l1 as [|a l1 IH]; intros u u' l2 prev H; cbn [app s_pragma].
  - destruct (dif_as_str _ _ _ _ _ _ _ H_both H) as (-> & ->). reflexivity.
  - rewrite !not_empty_mid. destruct (as_str a); now rewrite (IH u u' l2 _ H).
Qed.

Lemma loc_ArrayTypeName : slocal s_ArrayTypeName.
Proof. unfold s_ArrayTypeName. local. Qed.
Lemma loc_Assignment : slocal s_Assignment.
Proof. unfold s_Assignment. local. Qed.
Lemma loc_BinaryOperation : slocal s_BinaryOperation.
Proof. unfold s_BinaryOperation. local. Qed.
Lemma loc_Block : slocal s_Block.
Proof.
  unfold s_Block, s_statements. local.
  exact (Q_statements (sol_emit c) (sc_single c) l1 u u' l2 ltac:(eapply IH; [eassumption|lia])).
Qed.
Lemma loc_keyword_semi : forall s, slocal (s_keyword_semi s).
Proof. intro s. start. apply Not_shown. Qed.
Lemma loc_Comment : slocal s_Comment.
Proof. unfold s_Comment. local. Qed.
Lemma loc_Conditional : slocal s_Conditional.
Proof. unfold s_Conditional. local. Qed.
Lemma loc_ContractDefinition : slocal s_ContractDefinition.
Proof.
  unfold s_ContractDefinition. local.
  pose proof (member_end _ _ _ DU) as M. unfold get_str in M. rewrite M. apply Q_right. eapply IH; [eassumption|lia].
Qed.
Lemma loc_DoWhileStatement : slocal s_DoWhileStatement.
Proof. unfold s_DoWhileStatement. local. Qed.
Lemma loc_ElementaryTypeName : slocal s_ElementaryTypeName.
Proof. unfold s_ElementaryTypeName. local. Qed.
Lemma loc_ElementaryTypeNameExpression : slocal s_ElementaryTypeNameExpression.
Proof.
  unfold s_ElementaryTypeNameExpression. local. deep.
  pose proof (dif_get_str _ _ _ _ _ _ "stateMutability" H_both HD eq_refl) as M. unfold get_str in M. rewrite M.
  destruct (match kget v' "stateMutability" with Some w => as_str w | None => None end); [apply Not_shown|]. eapply IH; [eassumption|lia].
Qed.
Lemma loc_EmitStatement : slocal s_EmitStatement.
Proof. unfold s_EmitStatement. local. Qed.
Lemma loc_EnumDefinition : slocal s_EnumDefinition.
Proof. unfold s_EnumDefinition. local. Qed.
Lemma loc_Identifier : slocal s_Identifier.
Proof. unfold s_Identifier. local. Qed.
Lemma loc_ErrorDefinition : slocal s_ErrorDefinition.
Proof. unfold s_ErrorDefinition. local. Qed.
Lemma loc_EventDefinition : slocal s_EventDefinition.
Proof. unfold s_EventDefinition. local. Qed.
Lemma loc_ExpressionStatement : slocal s_ExpressionStatement.
Proof. unfold s_ExpressionStatement. local. Qed.
Lemma loc_ForStatement : slocal s_ForStatement.
Proof. unfold s_ForStatement. local. Qed.
Lemma loc_FunctionCall : slocal s_FunctionCall.
Proof.
  unfold s_FunctionCall. local.
  - rewrite (length_mid _ l1 u u' l2).
    assert (M : Q (commas (sol_emit c) (l1 ++ u :: l2)) (commas (sol_emit c) (l1 ++ u' :: l2)))
      by (apply Q_commas; eapply IH; [eassumption|lia]).
    destruct (match oget n' "names" with Some w => as_array w | None => None end) as [names|]; [|exact M].
    destruct (not_empty names); [|exact M]. destruct (Nat.eqb _ _); [|apply Not_shown].
    apply Q_left, Q_right, Q_named_args. eapply IH; [eassumption|lia].
  - rewrite (length_mid _ l1 u u' l2).
    destruct (match oget n' "arguments" with Some w => as_array w | None => None end) as [args|]; cbn [opt]; [|apply Not_shown].
    rewrite (named_names (sol_emit c) b l1 u u' l2 args DU). apply Not_shown.
Qed.
Lemma loc_FunctionCallOptions : slocal s_FunctionCallOptions.
Proof.
  unfold s_FunctionCallOptions. local.
  - rewrite (length_mid _ l1 u u' l2).
    destruct (match oget n' "names" with Some w => as_array w | None => None end) as [names|]; cbn [opt]; [|apply Not_shown].
    destruct (Nat.eqb _ _); [|apply Not_shown]. apply Q_when, Q_left, Q_right, Q_option_args. eapply IH; [eassumption|lia].
  - rewrite (length_mid _ l1 u u' l2).
    destruct (match oget n' "options" with Some w => as_array w | None => None end) as [args|]; cbn [opt]; [|apply Not_shown].
    rewrite (option_names (sol_emit c) b l1 u u' l2 args DU). apply Not_shown.
Qed.
Lemma loc_FunctionDefinition : slocal s_FunctionDefinition.
Proof.
  unfold s_FunctionDefinition. local. deep. apply (Q_returns v v'); [exact HD|]. apply Q_left. eapply IH; [eassumption|lia].
Qed.
Lemma loc_FunctionTypeName : slocal s_FunctionTypeName.
Proof.
  unfold s_FunctionTypeName. local. deep. apply (Q_returns v v'); [exact HD|]. apply Q_left. eapply IH; [eassumption|lia].
Qed.
Lemma loc_IfStatement : slocal s_IfStatement.
Proof. unfold s_IfStatement. local. Qed.
Lemma loc_ImportDirective : slocal s_ImportDirective.
Proof.
  unfold s_ImportDirective. local. deep. unfold s_alias.
  destruct (dif_only _ _ _ _ _ _ DU) as (k & w & w' & b & O' & E & _ & LT').
  rewrite (dif_get_str _ _ _ _ _ _ "local" H_both DU eq_refl). apply Q_right. unfold sub.
  destruct (O' "foreign") as [->|(-> & -> & ->)]; [apply Not_shown|]. cbn [opt]. eapply IH; [eassumption|lia].
Qed.
Lemma loc_IndexAccess : slocal s_IndexAccess.
Proof. unfold s_IndexAccess. local. Qed.
Lemma loc_InheritanceSpecifier : slocal s_InheritanceSpecifier.
Proof. unfold s_InheritanceSpecifier. local. Qed.
Lemma loc_InlineAssembly : slocal s_InlineAssembly.
Proof.
  unfold s_InlineAssembly. local. destruct (dif_as_str _ _ _ _ _ _ _ H_both DU) as (-> & ->). apply Not_shown.
Qed.
Lemma loc_Literal : slocal s_Literal.
Proof. unfold s_Literal. local. Qed.
Lemma loc_Mapping : slocal s_Mapping.
Proof. unfold s_Mapping. local. Qed.
Lemma loc_MemberAccess : slocal s_MemberAccess.
Proof. unfold s_MemberAccess. local. Qed.
Lemma loc_ModifierDefinition : slocal s_ModifierDefinition.
Proof. unfold s_ModifierDefinition. local. Qed.
Lemma loc_ModifierInvocation : slocal s_ModifierInvocation.
Proof. unfold s_ModifierInvocation. local. Qed.
Lemma loc_NewExpression : slocal s_NewExpression.
Proof. unfold s_NewExpression. local. Qed.
Lemma loc_OverrideSpecifier : slocal s_OverrideSpecifier.
Proof. unfold s_OverrideSpecifier. local. Qed.
Lemma loc_ParameterList : slocal s_ParameterList.
Proof. unfold s_ParameterList. local. Qed.
Lemma loc_PragmaDirective : slocal s_PragmaDirective.
Proof.
  unfold s_PragmaDirective. local. rewrite (pragma_words b l1 u u' l2 _ DU). apply Not_shown.
Qed.
Lemma loc_Return : slocal s_Return.
Proof. unfold s_Return. local. Qed.
Lemma loc_RevertStatement : slocal s_RevertStatement.
Proof. unfold s_RevertStatement. local. Qed.
Lemma loc_SourceUnit : slocal s_SourceUnit.
Proof. unfold s_SourceUnit. local. Qed.
Lemma loc_StructDefinition : slocal s_StructDefinition.
Proof. unfold s_StructDefinition. local. Qed.
Lemma loc_StructuredDocumentation : slocal s_StructuredDocumentation.
Proof. unfold s_StructuredDocumentation. local. Qed.
Lemma loc_TryCatchClause : slocal s_TryCatchClause.
Proof. unfold s_TryCatchClause. local. Qed.
Lemma loc_TryStatement : slocal s_TryStatement.
Proof. unfold s_TryStatement. local. Qed.
Lemma loc_TupleExpression : slocal s_TupleExpression.
Proof.
  unfold s_TupleExpression. local. destruct (dif_is_null _ _ _ _ _ _ _ H_both DU) as (-> & ->). reflexivity.
Qed.
Lemma loc_UnaryOperation : slocal s_UnaryOperation.
Proof.
  unfold s_UnaryOperation. local.
  destruct (match oget n' "prefix" with Some w => as_bool w | None => None end); cbn [opt]; [|apply Not_shown].
  apply Q_left, Q_right. eapply IH; [eassumption|lia].
Qed.
Lemma loc_UserDefinedTypeName : slocal s_UserDefinedTypeName.
Proof.
  unfold s_UserDefinedTypeName. local. deep.
  pose proof (dif_get_str _ _ _ _ _ _ "name" H_both HD eq_refl) as M. unfold get_str in M. rewrite M. apply Not_shown.
Qed.
Lemma loc_UserDefinedValueTypeDefinition : slocal s_UserDefinedValueTypeDefinition.
Proof. unfold s_UserDefinedValueTypeDefinition. local. Qed.
Lemma loc_UsingForDirective : slocal s_UsingForDirective.
Proof.
  unfold s_UsingForDirective. local. deep. unfold s_using_item.
  rewrite (dif_get_str _ _ _ _ _ _ "operator" H_both DU eq_refl). apply Q_right.
  destruct (dif_only _ _ _ _ _ _ DU) as (k & w & w' & b & O' & E & HK & LT').
  destruct (O' "definition") as [->|(K & -> & ->)]; [apply Not_shown|]. subst k. cbn [opt]. deep.
  unfold s_name, tok_of. rewrite (dif_get_str _ _ _ _ _ _ "name" H_both E eq_refl). apply Not_shown.
Qed.
Lemma loc_VariableDeclaration : slocal s_VariableDeclaration.
Proof. unfold s_VariableDeclaration. local. Qed.
Lemma loc_VariableDeclarationStatement : slocal s_VariableDeclarationStatement.
Proof.
  unfold s_VariableDeclarationStatement. local. rewrite (length_mid _ l1 u u' l2). apply Q_left, Q_right, Q_each.
  - eapply IH; [eassumption|lia].
  - destruct (dif_is_null _ _ _ _ _ _ _ H_both DU) as (-> & ->). reflexivity.
Qed.
Lemma loc_WhileStatement : slocal s_WhileStatement.
Proof. unfold s_WhileStatement. local. Qed.
Lemma loc_yul_assign : forall k, In k ["variables"; "variableNames"] -> slocal (s_yul_assign k).
Proof. intros k [<-|[<-|[]]]; unfold s_yul_assign; local. Qed.
Lemma loc_keyword : forall s, slocal (s_keyword s).
Proof. intro s. start. apply Not_shown. Qed.
Lemma loc_YulCase : slocal s_YulCase.
Proof.
  unfold s_YulCase. local.
  destruct (dif_kind _ _ _ _ _ _ _ H_both HD) as [(l & l' & -> & ->)|(o & o' & -> & ->)]; [apply Not_shown|].
  apply Q_left, Q_right. eapply IH; [eassumption|lia].
Qed.
Lemma loc_YulForLoop : slocal s_YulForLoop.
Proof. unfold s_YulForLoop. local. Qed.
Lemma loc_YulFunctionCall : slocal s_YulFunctionCall.
Proof. unfold s_YulFunctionCall. local. Qed.
Lemma loc_YulFunctionDefinition : slocal s_YulFunctionDefinition.
Proof.
  unfold s_YulFunctionDefinition. local. rewrite (length_mid _ l1 u u' l2). apply Q_left, Q_right, Q_commas. eapply IH; [eassumption|lia].
Qed.
Lemma loc_YulIf : slocal s_YulIf.
Proof. unfold s_YulIf. local. Qed.
Lemma loc_YulLiteral : slocal s_YulLiteral.
Proof. unfold s_YulLiteral. local. Qed.
Lemma loc_YulSwitch : slocal s_YulSwitch.
Proof. unfold s_YulSwitch. local. Qed.
Lemma loc_YulVariableDeclaration : slocal s_YulVariableDeclaration.
Proof.
  unfold s_YulVariableDeclaration. start. apply Q_left. eapply (loc_yul_assign "variables"); [now left|eassumption..].
Qed.

Lemma loc_dummy : forall c n n' b, D b n n' -> (b = false -> exists l, n = JArr l) ->
  (forall c u u' b, D b u u' -> jdepth u < jdepth n -> Q (sol_emit c u) (sol_emit c u')) ->
  Q (s_dummy c sol_emit n) (s_dummy c sol_emit n').
Proof.
  intros c n n' b H A IH. unfold s_dummy. inversion H; subst.
  - destruct (A eq_refl) as (l & E). destruct H_both as ((o & E') & _). congruence.
  - cbn [children]. apply Q_flat_map. eapply IH; [eassumption|apply jdepth_mid].
  - cbn [children]. rewrite !map_app. cbn [map snd]. apply Q_flat_map. eapply IH; [eassumption|].
    eapply jdepth_value. apply in_or_app. right. now left.
Qed.

Lemma loc_table : Forall (fun e => slocal (snd e)) sol_table.
Proof.
  unfold sol_table. repeat (apply Forall_cons || apply Forall_nil); cbn [snd];
    first [ apply loc_keyword | apply loc_keyword_semi | apply loc_yul_assign; cbn; tauto | idtac ].
  all: first [exact loc_ArrayTypeName | exact loc_Assignment | exact loc_BinaryOperation | exact loc_Block | exact loc_Comment | exact loc_Conditional | exact loc_ContractDefinition | exact loc_DoWhileStatement | exact loc_ElementaryTypeName | exact loc_ElementaryTypeNameExpression | exact loc_EmitStatement | exact loc_EnumDefinition | exact loc_Identifier | exact loc_ErrorDefinition | exact loc_EventDefinition | exact loc_ExpressionStatement | exact loc_ForStatement | exact loc_FunctionCall | exact loc_FunctionCallOptions | exact loc_FunctionDefinition | exact loc_FunctionTypeName | exact loc_IfStatement | exact loc_ImportDirective | exact loc_IndexAccess | exact loc_InheritanceSpecifier | exact loc_InlineAssembly | exact loc_Literal | exact loc_Mapping | exact loc_MemberAccess | exact loc_ModifierDefinition | exact loc_ModifierInvocation | exact loc_NewExpression | exact loc_OverrideSpecifier | exact loc_ParameterList | exact loc_PragmaDirective | exact loc_Return | exact loc_RevertStatement | exact loc_SourceUnit | exact loc_StructDefinition | exact loc_StructuredDocumentation | exact loc_TryCatchClause | exact loc_TryStatement | exact loc_TupleExpression | exact loc_UnaryOperation | exact loc_UserDefinedTypeName | exact loc_UserDefinedValueTypeDefinition | exact loc_UsingForDirective | exact loc_VariableDeclaration | exact loc_VariableDeclarationStatement | exact loc_WhileStatement | exact loc_YulCase | exact loc_YulForLoop | exact loc_YulFunctionCall | exact loc_YulFunctionDefinition | exact loc_YulIf | exact loc_YulLiteral | exact loc_YulSwitch | exact loc_YulVariableDeclaration].
Qed.

Theorem emit_changed : forall d n n' c b, jdepth n < d -> D b n n' -> Q (sol_emit c n) (sol_emit c n').
Proof.
  induction d as [|d IHd]; intros n n' c b L H; [lia|].
  assert (IH : forall c u u' b, D b u u' -> jdepth u < jdepth n -> Q (sol_emit c u) (sol_emit c u'))
    by (intros c' u u' b' Du Lu; eapply IHd; [lia|exact Du]).
  destruct b.
  - rewrite !sol_emit_unfold. unfold sol_printer_for.
    rewrite (dif_get_str _ _ _ _ _ _ "nodeType" H_both H eq_refl).
    assert (Y : Q (s_dummy c sol_emit n) (s_dummy c sol_emit n')) by (eapply loc_dummy; [exact H|discriminate|exact IH]).
    destruct (get_str n' "nodeType") as [ty|]; [|exact Y]. destruct (assoc ty sol_table) as [p|] eqn:P; [|exact Y].
    destruct (dif_only _ _ _ _ _ _ H) as (k & v & v' & b & O & E & HK & LT).
    pose proof (assoc_Forall _ slocal _ _ _ loc_table P) as LP. eapply LP; try eassumption.
    intros c' u u' b' Du Lu. eapply IH; [exact Du|lia].
  - inversion H; subst; [apply Q_print|].
    rewrite !sol_emit_unfold. change (Q (s_dummy c sol_emit (JArr (l1 ++ v :: l2))) (s_dummy c sol_emit (JArr (l1 ++ v' :: l2)))).
    eapply loc_dummy; [exact H|eauto|exact IH].
Qed.
End Local.
