(** What an operator makes of a node of a Solidity program, said of the program. *)
From Coq Require Import String Ascii List NArith ZArith Bool Lia.
From Verif Require Import Base Json JsonFacts Rng MutationType Traverse OpCommon SolMutators SpecTree SpecMutation SpecOps SpecTotal SpecAccept SpecReach SpecLiteral SpecVyText SpecSolText SpecSolEdit
  LocalFacts SolText SolTextStmt SolTextClaims SolPlace SolStrip SolMade.
From Verif Require VyEditFacts.
Import ListNotations.
Open Scope string_scope.
Open Scope list_scope.

(** ** Types of nodes *)

Definition expression_types (e : sexp) : list string :=
  match e with
  | XId _ => ["Identifier"; "IdentifierPath"] | XLit _ _ | XStr _ | XUnicode _ | XHex _ => ["Literal"] | XBin _ _ _ => ["BinaryOperation"]
  | XPre _ _ | XPost _ _ => ["UnaryOperation"] | XCond _ _ _ => ["Conditional"] | XAssign _ _ _ => ["Assignment"]
  | XCall _ _ | XNamed _ _ => ["FunctionCall"] | XOpts _ _ => ["FunctionCallOptions"] | XMember _ _ => ["MemberAccess"]
  | XIndex _ _ => ["IndexAccess"] | XSlice _ _ _ => ["IndexRangeAccess"] | XTuple _ | XArray _ => ["TupleExpression"]
  | XNew _ => ["NewExpression"] | XType _ => ["ElementaryTypeNameExpression"] | TName _ _ => ["ElementaryTypeName"]
  | TUser _ => ["UserDefinedTypeName"] | TMap _ _ _ _ => ["Mapping"] | TArr _ _ => ["ArrayTypeName"] | TFun _ _ _ _ => ["FunctionTypeName"]
  end.
Definition statement_types (s : sstmt) : list string :=
  match s with
  | CExp _ => ["ExpressionStatement"] | CVar _ _ => ["VariableDeclarationStatement"] | CBlock u _ => [if u then "UncheckedBlock" else "Block"]
  | CIf _ _ _ => ["IfStatement"] | CWhile _ _ => ["WhileStatement"] | CDo _ _ => ["DoWhileStatement"] | CFor _ _ _ _ => ["ForStatement"]
  | CReturn _ => ["Return"] | CEmit _ => ["EmitStatement"] | CRevert _ => ["RevertStatement"]
  | CWord _ => ["Break"; "Continue"; "PlaceholderStatement"] | CTry _ _ _ _ => ["TryStatement"]
  end.
Definition member_types (m : smember) : list string :=
  match m with
  | MVar _ => ["VariableDeclaration"] | MFun _ => ["FunctionDefinition"] | MModifier _ _ _ _ _ => ["ModifierDefinition"]
  | MEvent _ _ _ => ["EventDefinition"] | MError _ _ => ["ErrorDefinition"] | MStruct _ _ => ["StructDefinition"] | MEnum _ _ => ["EnumDefinition"]
  | MType _ _ => ["UserDefinedValueTypeDefinition"] | MUsing _ _ _ | MUsingFuns _ _ _ => ["UsingForDirective"]
  end.
Definition types (t : thing) : list string :=
  match t with
  | TE e => expression_types e | TV _ => ["VariableDeclaration"] | TS s => statement_types s | TM m => member_types m
  | TP (PWord _ _) | TP (PSolidity _) => ["PragmaDirective"] | TP (PImport _ _ _) => ["ImportDirective"]
  | TP (PContract _ _ _ _ _) => ["ContractDefinition"] | TP (PMember m) => member_types m
  | TU _ => ["SourceUnit"]
  end.

Lemma expression_type : forall e n, xnode e n -> exists ty, is_n n ty /\ In ty (expression_types e).
Proof.
  intros e n H. destruct e; cbn [xnode] in H; try (destruct H as (A & _); eexists; split; [exact A|left; reflexivity]).
  destruct H as ([A|A] & _); eexists; (split; [exact A|cbn; tauto]).
Qed.
Lemma statement_type : forall s n, cnode s n -> exists ty, is_n n ty /\ In ty (statement_types s).
Proof.
  intros s n H. destruct s; cbn [cnode] in H; try (destruct H as (A & _); eexists; split; [exact A|left; reflexivity]).
  destruct H as (ty & I & A). exists ty. split; [exact A|]. cbn in I |- *. repeat (destruct I as [I|I]; [injection I as <- _; tauto|]). destruct I.
Qed.
Lemma member_type : forall m n, mnode m n -> exists ty, is_n n ty /\ In ty (member_types m).
Proof.
  intros m n H. destruct m; cbn [mnode] in H; try (destruct H as (A & _); eexists; split; [exact A|left; reflexivity]).
  all: destruct H as ((A & _) & _); eexists; split; [exact A|left; reflexivity].
Qed.

Lemma any_type : forall license t n, any license t n -> exists ty, is_n n ty /\ In ty (types t).
Proof.
  intros license [e|v|s|m|p|l] n H; cbn [any] in H.
  - now apply expression_type.
  - destruct H as (A & _). eexists. split; [exact A|left; reflexivity].
  - now apply statement_type.
  - now apply member_type.
  - destruct p; cbn [pnode] in H; try (destruct H as (A & _); eexists; split; [exact A|left; reflexivity]). now apply member_type.
  - destruct H as (A & _). eexists. split; [exact A|left; reflexivity].
Qed.

Lemma same_type : forall n ty ty', is_n n ty -> is_n n ty' -> ty = ty'.
Proof. intros n ty ty' A B. unfold is_n, fld in *. congruence. Qed.
Lemma type_of : forall license t n ty, any license t n -> is_n n ty -> In ty (types t).
Proof. intros license t n ty H A. destruct (any_type license t n H) as (ty' & A' & I). now rewrite (same_type n ty ty' A A'). Qed.

Ltac which H := match type of H with In ?ty (types ?t) =>
  destruct t as [[]|[]|[| |[]| | | | | | | | |]|[]|[| | | |[]]|]; cbn in H; repeat (destruct H as [H|H]; [try discriminate H|]); try (exact (False_ind _ H)) end.

Section Outcome.
Variable license : option string.
Notation any := (any license).

Lemma is_binary : forall t n, any t n -> is_n n "BinaryOperation" -> exists op a b, t = TE (XBin op a b).
Proof. intros t n H A. pose proof (type_of license t n _ H A) as I. which I; eauto. Qed.
Lemma is_unary : forall t n, any t n -> is_n n "UnaryOperation" -> exists op a, t = TE (XPre op a) \/ t = TE (XPost op a).
Proof. intros t n H A. pose proof (type_of license t n _ H A) as I. which I; eauto. Qed.
Lemma is_assignment : forall t n, any t n -> is_n n "Assignment" -> exists op a b, t = TE (XAssign op a b).
Proof. intros t n H A. pose proof (type_of license t n _ H A) as I. which I; eauto. Qed.
Lemma is_call : forall t n, any t n -> is_n n "FunctionCall" -> exists f, (exists args, t = TE (XCall f args)) \/ (exists args, t = TE (XNamed f args)).
Proof. intros t n H A. pose proof (type_of license t n _ H A) as I. which I; eauto. Qed.
Lemma is_literal : forall t n, any t n -> is_n n "Literal" -> fld n "kind" (JStr "number") -> exists s u, t = TE (XLit s u).
Proof.
  intros t n H A K. pose proof (type_of license t n _ H A) as I. which I; [eauto| | |];
    destruct H as (_ & K' & _); unfold fld in *; rewrite K in K'; discriminate K'.
Qed.
Lemma is_access : forall t n, any t n -> is_n n "MemberAccess" -> exists a x, t = TE (XMember a x).
Proof. intros t n H A. pose proof (type_of license t n _ H A) as I. which I; eauto. Qed.
Lemma is_block : forall t n, any t n -> is_n n "Block" -> exists l, t = TS (CBlock false l).
Proof. intros t n H A. pose proof (type_of license t n _ H A) as I. which I; eauto. Qed.
Lemma is_if : forall t n, any t n -> is_n n "IfStatement" -> exists e a o, t = TS (CIf e a o).
Proof. intros t n H A. pose proof (type_of license t n _ H A) as I. which I; eauto. Qed.
Lemma is_while : forall t n, any t n -> is_n n "WhileStatement" -> exists e s, t = TS (CWhile e s).
Proof. intros t n H A. pose proof (type_of license t n _ H A) as I. which I; eauto. Qed.
Lemma is_do : forall t n, any t n -> is_n n "DoWhileStatement" -> exists e s, t = TS (CDo s e).
Proof. intros t n H A. pose proof (type_of license t n _ H A) as I. which I; eauto. Qed.
Lemma is_for : forall t n, any t n -> is_n n "ForStatement" -> exists i e l s, t = TS (CFor i e l s).
Proof. intros t n H A. pose proof (type_of license t n _ H A) as I. which I; repeat eexists. Qed.
Lemma is_function : forall t n, any t n -> is_n n "FunctionDefinition" -> exists f, t = TM (MFun f) \/ t = TP (PMember (MFun f)).
Proof. intros t n H A. pose proof (type_of license t n _ H A) as I. which I; eauto. Qed.
Lemma is_modifier : forall t n, any t n -> is_n n "ModifierDefinition" ->
  exists f ps v o b, t = TM (MModifier f ps v o b) \/ t = TP (PMember (MModifier f ps v o b)).
Proof. intros t n H A. pose proof (type_of license t n _ H A) as I. which I; repeat eexists; eauto. Qed.
Lemma is_clause : forall t n, any t n -> is_n n "TryCatchClause" -> False.
Proof. intros t n H A. pose proof (type_of license t n _ H A) as I. which I. Qed.

(** The accepted nodes are active ones. *)
Lemma accepted_active : forall t n, sol_accepts t n -> exists ty, is_n n ty /\ In ty active.
Proof.
  intros t n H. destruct t as [[]|[]]; cbn [sol_accepts] in H; destruct H as (A & _); (eexists; split; [exact A|cbn; tauto]).
Qed.

(** ** Fields *)

Ltac moved := match goal with E : forall k', _ -> oget ?n' k' = oget ?n k' |- _ =>
    unfold is_n, flag, gone, fld in *; rewrite E by discriminate; first [eassumption|idtac] end.
Ltac moved2 := match goal with E : forall k', _ -> _ -> oget ?n' k' = oget ?n k' |- _ =>
    unfold is_n, fld in *; rewrite E by discriminate; first [eassumption|idtac] end.
Ltac same_field := match goal with
  | F1 : has_field ?v ?k ?a, F2 : fld ?v ?k ?b |- _ => unfold has_field in F1; unfold fld in F2; rewrite F1 in F2; injection F2 as F2; fold (fld v k a) in F1; subst
  end.

(** ** New nodes *)

Lemma number_node : forall z, xnode (number z) (strip (sol_int_node z)).
Proof. intros z. repeat split; left; reflexivity. Qed.
Lemma truth_node : forall b, xnode (truth b) (strip (sol_bool_node b)).
Proof. intros [|]; repeat split; right; reflexivity. Qed.
Lemma negated_node : forall e x, xnode e x -> uncommented x -> xnode (negated e) (strip (sol_unary_node "!" true (sol_tuple_node [x]))).
Proof.
  intros e x H U. split; [reflexivity|]. split; [reflexivity|]. split; [reflexivity|]. eexists. split; [reflexivity|].
  split; [reflexivity|]. split; [right; split; reflexivity|]. eexists. split; [reflexivity|]. rewrite (uncommented_root x U). cbn. rewrite strip_id by exact U. auto.
Qed.
Lemma required_node : forall e x, xnode e x -> uncommented x -> xnode (negated e) (strip (sol_require_node x)).
Proof.
  intros e x H U. split; [reflexivity|]. split; [reflexivity|]. split; [reflexivity|]. eexists. split; [reflexivity|].
  split; [reflexivity|]. split; [left; reflexivity|]. eexists. split; [reflexivity|]. rewrite (uncommented_root x U). cbn. rewrite strip_id by exact U. auto.
Qed.
Lemma unchecked_node : forall s x id, cnode s x -> uncommented x -> cnode (CBlock true [s]) (strip (sol_unchecked_node [x] id)).
Proof.
  intros s x id H U. split; [reflexivity|]. eexists. split; [reflexivity|]. rewrite (uncommented_root x U). cbn. rewrite strip_id by exact U. auto.
Qed.

(** ** Lists *)

Lemma call_elements : forall es ns, xelements xnode es ns <-> Forall2 xnode es ns.
Proof.
  induction es as [|e es IH]; intros [|n ns]; cbn [xelements]; split; intros H; try solve [constructor|destruct H|inversion H].
  - destruct H as (A & B). constructor; [exact A|now apply IH].
  - inversion H; subst. split; [assumption|now apply IH].
Qed.

Lemma two_cuts : forall A B (R : A -> B -> Prop) es a x b y c, Forall2 R es (a ++ x :: b ++ y :: c) ->
  exists ea ex eb ey ec, es = ea ++ ex :: eb ++ ey :: ec /\ R ex x /\ R ey y /\ Forall2 R ea a /\ Forall2 R eb b /\ Forall2 R ec c.
Proof.
  intros A B R es a x b y c F. apply Forall2_mid_inv in F. destruct F as (ea & ex & r & -> & Fa & Rx & F). apply Forall2_mid_inv in F.
  destruct F as (eb & ey & ec & -> & Fb & Ry & Fc). exists ea, ex, eb, ey, ec. auto 10.
Qed.

(** ** The edit *)

Lemma return_type : forall s n, cnode s n -> ~ is_sol "Return" n -> is_return s = false.
Proof. intros s n H N. destruct s; try reflexivity. exfalso. apply N. apply H. Qed.
Lemma unchecked_type : forall s n, cnode s n -> ~ is_sol "UncheckedBlock" n -> is_unchecked s = false.
Proof. intros s n H N. destruct s as [| |[]| | | | | | | | |]; try reflexivity. exfalso. apply N. apply H. Qed.
Lemma expression_statement : forall s n, cnode s n -> is_sol "ExpressionStatement" n -> exists e, s = CExp e.
Proof.
  intros s n H A. destruct (statement_type s n H) as (ty & B & I). pose proof (same_type n _ _ A B) as <-.
  destruct s as [| |[]| | | | | | | | |]; cbn in I; repeat (destruct I as [I|I]; [try discriminate I|]); try (exact (False_ind _ I)). eauto.
Qed.

Lemma fill_edit : forall t0 t n k v m, any t0 n -> sol_accepts t n -> uncommented n -> fills n t k v -> field_becomes k (strip v) n m ->
  exists t0', sort t0 t0' /\ any t0' m /\ sol_edit t t0 t0'.
Proof.
  intros t0 t n k v m H Acc U F B. apply VyEditFacts.becomes in B. destruct B as (F' & E).
  destruct F as [g class op op' Cl Fo Io No|p op op' Fp Fo Io No|z| |a x b Fl Tx Ne|a x b y c Fl|b|c Fc|z|a x b y c Fl Rx Ry|x l Fl|a x b id Fl Rx Ux|].
  - assert (A : is_n n "BinaryOperation" /\ exists op, fld n "operator" (JStr op) /\ In op class).
    { destruct g; try discriminate Cl; injection Cl as <-; cbn [sol_accepts] in Acc; destruct Acc as (A & op0 & Q & I); split; try exact A; exists op0; split; assumption. }
    destruct A as (A & op0 & Fo0 & I0). destruct (is_binary t0 n H A) as (op1 & a & b & ->). destruct H as (_ & Ib & Fo1 & (va & Fa & Ha) & (vb & Fb & Hb)).
    assert (op0 = op) by (unfold has_field, fld in *; congruence). assert (op1 = op) by (unfold has_field, fld in *; congruence). subst.
    exists (TE (XBin op' a b)). split; [exact Logic.I|]. split.
    + split; [moved|]. split; [|split; [exact F'|split; [exists va; split; [moved|exact Ha]|exists vb; split; [moved|exact Hb]]]].
      destruct g; try discriminate Cl; injection Cl as <-; cbn in Io |- *; intuition subst; tauto.
    + apply se_binary; [| |exact No]; destruct g; try discriminate Cl; injection Cl as <-; assumption.
  - cbn [sol_accepts] in Acc. destruct Acc as (A & p0 & op0 & Fp0 & Fo0 & I0). assert (p0 = p) by (unfold has_field in *; congruence). assert (op0 = op) by (unfold has_field in *; congruence). subst.
    destruct (is_unary t0 n H A) as (op1 & a & [-> | ->]); destruct H as (_ & Fp1 & Fo1 & (va & Fa & Ha));
      assert (op1 = op) by (unfold has_field, fld in *; congruence); subst op1.
    + assert (p = true) by (unfold has_field, fld in *; congruence). subst p. exists (TE (XPre op' a)). split; [exact Logic.I|]. split; [|now apply se_prefix].
      split; [moved|]. split; [moved|]. split; [exact F'|]. exists va. split; [moved|exact Ha].
    + assert (p = false) by (unfold has_field, fld in *; congruence). subst p. exists (TE (XPost op' a)). split; [exact Logic.I|]. split; [|now apply se_postfix].
      split; [moved|]. split; [moved|]. split; [exact F'|]. exists va. split; [moved|exact Ha].
  - cbn [sol_accepts] in Acc. destruct Acc as (A & _). destruct (is_assignment t0 n H A) as (op & a & b & ->). destruct H as (_ & Fo & (va & Fa & Ha) & _).
    exists (TE (XAssign op a (number z))). split; [exact Logic.I|]. split; [|constructor]. split; [moved|]. split; [moved|]. split; [exists va; split; [moved|exact Ha]|].
    eexists. split; [exact F'|apply number_node].
  - cbn [sol_accepts] in Acc. destruct Acc as (A & _). destruct (is_assignment t0 n H A) as (op & a & b & ->). destruct H as (_ & Fo & (va & Fa & Ha) & _).
    exists (TE (XAssign op a (truth false))). split; [exact Logic.I|]. split; [|constructor]. split; [moved|]. split; [moved|]. split; [exists va; split; [moved|exact Ha]|].
    eexists. split; [exact F'|apply truth_node].
  - cbn [sol_accepts] in Acc. destruct Acc as (A & _). destruct (is_block t0 n H A) as (l & ->). destruct H as (_ & ns & Fs & Hs). same_field.
    apply block_nodes in Hs. apply Forall2_mid_inv in Hs. destruct Hs as (la & s & lb & -> & Ha & Hx & Hb). destruct (expression_statement s x Hx Tx) as (e & ->).
    exists (TS (CBlock false (la ++ lb))). split; [exact Logic.I|]. split.
    + split; [moved|]. exists (a ++ b). split; [|apply block_nodes; now apply Forall2_app].
      pose proof (list_uncommented n _ _ U Fl) as Ul. apply Forall_app in Ul. destruct Ul as (Ua & Ub). inversion Ub; subst.
      rewrite strip_arr, strips_app, strips_comment, !strips_id in F' by (assumption || reflexivity). exact F'.
    + apply se_delete. intros Z. apply app_eq_nil in Z. destruct Z as (-> & ->). inversion Ha; inversion Hb; subst. now apply Ne.
  - cbn [sol_accepts] in Acc. destruct Acc as (A & _).
    pose proof (list_uncommented n _ _ U Fl) as Ul. apply Forall_app in Ul. destruct Ul as (Ua & Ul). inversion Ul as [|? ? Ux Ul']; subst. apply Forall_app in Ul'. destruct Ul' as (Ub & Ul''). inversion Ul'' as [|? ? Uy Uc]; subst.
    rewrite strip_arr, strips_id in F' by (apply Forall_app; split; [assumption|]; constructor; [assumption|apply Forall_app; split; [assumption|constructor; assumption]]).
    destruct (is_call t0 n H A) as (f & [(args & ->)|(args & ->)]).
    + destruct H as (_ & (vf & Ff & Hf) & (l & Fl' & Hl) & Fn & Ft). same_field. apply call_elements in Hl. destruct (two_cuts _ _ _ _ _ _ _ _ _ Hl) as (ea & ex & eb & ey & ec & -> & Hx & Hy & Ha & Hb & Hc).
      exists (TE (XCall f (ea ++ ey :: eb ++ ex :: ec))). split; [exact Logic.I|]. split; [|apply se_swap_args; exists ea, ex, eb, ey, ec; auto].
      split; [moved|]. split; [exists vf; split; [moved|exact Hf]|]. split; [eexists; split; [exact F'|]; apply call_elements; now repeat apply Forall2_mid|]. split; [moved|moved].
    + destruct H as (_ & (vf & Ff & Hf) & Ne & Ft & ks & vs & Fn & Fv & Hl). same_field. apply named_nodes in Hl. destruct Hl as (-> & Hl).
      destruct (two_cuts _ _ _ _ _ _ _ _ _ Hl) as (ea & [kx ex] & eb & [ky ey] & ec & -> & Hx & Hy & Ha & Hb & Hc). cbn [snd] in Hx, Hy.
      exists (TE (XNamed f (ea ++ (kx, ey) :: eb ++ (ky, ex) :: ec))). split; [exact Logic.I|]. split.
      * split; [moved|]. split; [exists vf; split; [moved|exact Hf]|]. split; [destruct ea; discriminate|]. split; [moved|].
        eexists. eexists. split; [moved|]. split; [exact F'|]. apply named_nodes. split; [rewrite !map_app; cbn [map fst]; now rewrite !map_app|].
        now repeat apply Forall2_mid.
      * apply se_swap_named; [rewrite !map_app; cbn [map fst]; now rewrite !map_app|].
        exists (map snd ea), ex, (map snd eb), ey, (map snd ec). rewrite !map_app. cbn [map snd]. rewrite !map_app. auto.
  - cbn [sol_accepts] in Acc. destruct Acc as (A & _). destruct (is_if t0 n H A) as (e & a & o & ->). destruct H as (_ & _ & (va & Fa & Ha) & Ho).
    exists (TS (CIf (truth b) a o)). split; [exact Logic.I|]. split; [|constructor]. split; [moved|]. split; [eexists; split; [exact F'|apply truth_node]|].
    split; [exists va; split; [moved|exact Ha]|]. destruct o; [destruct Ho as (vo & Fo & Ho); exists vo; split; [moved|exact Ho]|moved].
  - cbn [sol_accepts] in Acc. destruct Acc as (A & _). destruct (is_if t0 n H A) as (e & a & o & ->). destruct H as (_ & (ve & Fe & He) & (va & Fa & Ha) & Ho). same_field.
    exists (TS (CIf (negated e) a o)). split; [exact Logic.I|]. split; [|constructor]. split; [moved|].
    split; [eexists; split; [exact F'|apply negated_node; [exact He|exact (uncommented_field n _ _ U Fc)]]|].
    split; [exists va; split; [moved|exact Ha]|]. destruct o; [destruct Ho as (vo & Fo & Ho); exists vo; split; [moved|exact Ho]|moved].
  - cbn [sol_accepts] in Acc. destruct Acc as (A & K & _). destruct (is_literal t0 n H A K) as (s & u & ->). destruct H as (_ & Fk & Fv & Fu).
    exists (TE (XLit (show_Z z) u)). split; [exact Logic.I|]. split; [|constructor]. split; [moved|]. split; [left; moved|]. split; [exact F'|]. destruct u; moved.
  - cbn [sol_accepts] in Acc. destruct Acc as (A & _). destruct (is_block t0 n H A) as (l & ->). destruct H as (_ & ns & Fs & Hs). same_field.
    pose proof (list_uncommented n _ _ U Fl) as Ul. apply Forall_app in Ul. destruct Ul as (Ua & Ul). inversion Ul as [|? ? Ux Ul']; subst. apply Forall_app in Ul'. destruct Ul' as (Ub & Ul''). inversion Ul'' as [|? ? Uy Uc]; subst.
    rewrite strip_arr, strips_id in F' by (apply Forall_app; split; [assumption|]; constructor; [assumption|apply Forall_app; split; [assumption|constructor; assumption]]).
    apply block_nodes in Hs. destruct (two_cuts _ _ _ _ _ _ _ _ _ Hs) as (ea & ex & eb & ey & ec & -> & Hx & Hy & Ha & Hb & Hc).
    exists (TS (CBlock false (ea ++ ey :: eb ++ ex :: ec))). split; [exact Logic.I|]. split.
    + split; [moved|]. eexists. split; [exact F'|]. apply block_nodes. now repeat apply Forall2_mid.
    + eapply se_swap_lines; [reflexivity|reflexivity|exact (return_type _ _ Hx Rx)|exact (return_type _ _ Hy Ry)].
  - cbn [sol_accepts] in Acc. destruct Acc as (A & _).
    pose proof (list_uncommented n _ _ U Fl) as Ul. inversion Ul as [|? ? Ux Ul']; subst.
    rewrite strip_arr, strips_cons, (strips_id l) in F' by (assumption || reflexivity).
    destruct (is_call t0 n H A) as (f & [(args & ->)|(args & ->)]).
    + destruct H as (_ & (vf & Ff & Hf) & (l0 & Fl' & Hl) & Fn & Ft). same_field. apply call_elements in Hl. inversion Hl as [|e ? es ? Hx Hes]; subst.
      exists (TE (XCall f (negated e :: es))). split; [exact Logic.I|]. split; [|constructor].
      split; [moved|]. split; [exists vf; split; [moved|exact Hf]|]. split; [eexists; split; [exact F'|]; apply call_elements; constructor; [now apply required_node|assumption]|]. split; [moved|moved].
    + destruct H as (_ & (vf & Ff & Hf) & Ne & Ft & ks & vs & Fn & Fv & Hl). same_field. apply named_nodes in Hl. destruct Hl as (-> & Hl).
      inversion Hl as [|[kx e] ? es ? Hx Hes]; subst. cbn [snd] in Hx.
      exists (TE (XNamed f ((kx, negated e) :: es))). split; [exact Logic.I|]. split; [|constructor].
      split; [moved|]. split; [exists vf; split; [moved|exact Hf]|]. split; [discriminate|]. split; [moved|].
      exists (map (fun kv => JStr (fst kv)) ((kx, negated e) :: es)), (strip (sol_require_node x) :: l). split; [moved|]. split; [exact F'|].
      apply (proj2 (named_nodes ((kx, negated e) :: es) (map (fun kv => JStr (fst kv)) ((kx, negated e) :: es)) (strip (sol_require_node x) :: l))). split; [reflexivity|]. constructor; [now apply required_node|assumption].
  - cbn [sol_accepts] in Acc. destruct Acc as (A & _). destruct (is_block t0 n H A) as (l & ->). destruct H as (_ & ns & Fs & Hs). same_field.
    pose proof (list_uncommented n _ _ U Fl) as Ul. apply Forall_app in Ul. destruct Ul as (Ua & Ul). inversion Ul as [|? ? Uc Ub]; subst.
    rewrite strip_arr, strips_app, strips_cons, (strips_id a), (strips_id b) in F' by (assumption || reflexivity).
    apply block_nodes in Hs. apply Forall2_mid_inv in Hs. destruct Hs as (la & s & lb & -> & Ha & Hx & Hb).
    exists (TS (CBlock false (la ++ CBlock true [s] :: lb))). split; [exact Logic.I|]. split.
    + split; [moved|]. eexists. split; [exact F'|]. apply block_nodes. apply Forall2_mid; [assumption|now apply unchecked_node|assumption].
    + apply se_unchecked; [exact (return_type _ _ Hx Rx)|exact (unchecked_type _ _ Hx Ux)].
  - cbn [sol_accepts] in Acc. destruct Acc as (A & K). destruct (is_access t0 n H A) as (a & x & ->). destruct H as (_ & (va & Fa & Ha) & Fx). same_field.
    exists (TE (XMember a "call")). split; [exact Logic.I|]. split; [|constructor]. split; [moved|]. split; [exists va; split; [moved|exact Ha]|exact F'].
Qed.

Lemma outcome_edit : forall t0 t n n', any t0 n -> sol_accepts t n -> uncommented n -> made n t n' ->
  exists t0', sort t0 t0' /\ any t0' (strip n') /\ sol_edit t t0 t0'.
Proof.
  intros t0 t n n' H Acc U Md. destruct Md as [t1 k v n1 F B|a b n1 Fa Fb B|l x Fl Ix].
  - eapply fill_edit; [exact H|exact Acc|exact U|exact F|]. now apply strip_becomes.
  - pose proof (uncommented_field n _ _ U Fa) as Ua. pose proof (uncommented_field n _ _ U Fb) as Ub. apply (strip_two _ _ _ _ _ _ U Ub Ua) in B. apply VyEditFacts.two_become in B. destruct B as (F1 & F2 & E).
    cbn [sol_accepts] in Acc. destruct Acc as (A & op & Fo & Io). destruct (is_binary t0 n H A) as (op1 & ea & eb & ->). destruct H as (_ & Ib & Fo1 & (va & Fa' & Ha) & (vb & Fb' & Hb)).
    assert (va = a) by (unfold has_field, fld in *; congruence). assert (vb = b) by (unfold has_field, fld in *; congruence). assert (op1 = op) by (unfold has_field, fld in *; congruence). subst.
    exists (TE (XBin op eb ea)). split; [exact Logic.I|]. split; [|apply se_swap_operands; cbn in Io |- *; intuition subst; tauto].
    split; [moved2|]. split; [exact Ib|]. split; [moved2|]. split; [exists b; auto|exists a; auto].
  - cbn [sol_accepts] in Acc. destruct Acc as (A & _). rewrite strip_id by exact (uncommented_elem l x (uncommented_field n _ _ U Fl) Ix).
    destruct (is_call t0 n H A) as (f & [(args & ->)|(args & ->)]).
    + destruct H as (_ & _ & (l0 & Fl' & Hl) & _). same_field. apply call_elements in Hl. apply in_split in Ix. destruct Ix as (u & w & ->). apply Forall2_mid_inv in Hl.
      destruct Hl as (eu & e & ew & -> & _ & Hx & _). exists (TE e). split; [exact Logic.I|]. split; [exact Hx|]. constructor. apply in_or_app. right. now left.
    + destruct H as (_ & _ & _ & _ & ks & vs & Fn & Fv & Hl). same_field. apply named_nodes in Hl. destruct Hl as (-> & Hl). apply in_split in Ix. destruct Ix as (u & w & ->). apply Forall2_mid_inv in Hl.
      destruct Hl as (eu & [k e] & ew & -> & _ & Hx & _). exists (TE e). split; [exact Logic.I|]. split; [exact Hx|]. constructor. apply in_map_iff. exists (k, e). split; [reflexivity|]. apply in_or_app. right. now left.
Qed.

End Outcome.
