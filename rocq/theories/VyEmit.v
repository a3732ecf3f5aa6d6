(** The Vyper node printers: they ignore bookkeeping, they need only the
    printers of their sub-nodes, and they are balanced. *)
From Coq Require Import String Ascii List NArith ZArith Arith Bool Lia.
From Verif Require Import Base Json JsonFacts Printer SpecPrinter VyMutators VyPrinter EmitFacts.
Import ListNotations.
Open Scope string_scope.
Open Scope list_scope.

Notation vkeys := vyper_bookkeeping.
Notation vsim := (sim vkeys).
Notation vunder := (under vkeys).

Definition vresp (p : vcode) : Prop := forall c n n' r r',
  vsim n n' ->
  (forall c x y, vunder (jdepth n) x y -> r c x = r' c y) ->
  (forall c v, scalar v -> r c v = []) -> (forall c v, scalar v -> r' c v = []) ->
  p c r n = p c r' n'.

Ltac vstart := intros c n n' r r' Hs Hr Hn Hn'.

Lemma resp_Name : vresp v_Name.
Proof. vstart. unfold v_Name. par. Qed.
Lemma resp_VariableDecl : vresp v_VariableDecl.
Proof. vstart. unfold v_VariableDecl, flag, v_value_assignment. par. Qed.
Lemma resp_Subscript : vresp v_Subscript.
Proof. vstart. unfold v_Subscript. par. Qed.
Lemma resp_Index : vresp v_Index.
Proof. vstart. unfold v_Index, v_simple_value. par. Qed.
Lemma resp_Tuple : vresp v_Tuple.
Proof. vstart. unfold v_Tuple, v_array. par. Qed.

Lemma decorators_par : forall d f f' l l',
  Forall2 (vunder d) l l' -> (forall x y, vunder d x y -> f x = f' y) ->
  v_decorators f l = v_decorators f' l'.
Proof.
  intros d f f' l l' H Hf. destruct H as [| x y l l' Hxy H]; [ reflexivity |].
  unfold v_decorators. rewrite (Hf x y Hxy). par. rewrite (Hf x0 y0); [ reflexivity | split; assumption ].
Qed.

Lemma resp_FunctionDef : vresp v_FunctionDef.
Proof.
  vstart. unfold v_FunctionDef, v_array. par.
  eapply decorators_par; [ eassumption |]. intros; apply Hr; assumption.
Qed.

Lemma nth_par : forall d i l l',
  Forall2 (vunder d) l l' -> orel (vunder d) (nth_error l i) (nth_error l' i).
Proof.
  intros d i l l' H. revert i. induction H; intros [| i]; cbn [nth_error]; try constructor; auto.
Qed.

Lemma args_par : forall d f f' first args args' defaults defaults' i,
  Forall2 (vunder d) args args' -> Forall2 (vunder d) defaults defaults' ->
  (forall x y, vunder d x y -> f x = f' y) ->
  v_args f first i args defaults = v_args f' first i args' defaults'.
Proof.
  intros d f f' first args args' defaults defaults' i H Hd Hf. revert i.
  induction H as [| x y l l' Hxy H IH]; intro i; [ reflexivity |]. cbn [v_args].
  rewrite (Hf x y Hxy), IH. rewrite (not_empty_par _ _ _ _ H). f_equal. f_equal.
  destruct (Nat.leb first i); [| reflexivity ].
  destruct (nth_par d (i - first) _ _ Hd) as [| a b Hab]; [ reflexivity |].
  rewrite (Hf a b Hab). reflexivity.
Qed.

Lemma resp_arguments : vresp v_arguments.
Proof.
  vstart. unfold v_arguments, v_array. par.
  eapply args_par; [ eassumption | eassumption |]. intros; apply Hr; assumption.
Qed.
Lemma resp_arg : vresp v_arg.
Proof. vstart. unfold v_arg. par. Qed.
Lemma resp_Assign : vresp v_Assign.
Proof. vstart. unfold v_Assign. par. Qed.
Lemma resp_Attribute : vresp v_Attribute.
Proof. vstart. unfold v_Attribute. par. Qed.

Lemma symbol_par : forall n n', vsim n n' -> v_symbol n = v_symbol n'.
Proof.
  intros n n' H. unfold v_symbol. destruct (sim_oget vkeys n n' "op" H eq_refl); [ reflexivity |].
  rewrite (sim_get_str vkeys a b "ast_type" H0 eq_refl). reflexivity.
Qed.

Lemma unary_par : forall n n', vsim n n' -> v_unary_op n = v_unary_op n'.
Proof.
  intros n n' H. unfold v_unary_op. destruct (sim_oget vkeys n n' "op" H eq_refl); [ reflexivity |].
  apply (sim_get_str vkeys a b "ast_type" H0 eq_refl).
Qed.

Lemma resp_AugAssign : vresp v_AugAssign.
Proof. vstart. unfold v_AugAssign. rewrite (symbol_par n n' Hs). par. Qed.
Lemma resp_Int : vresp v_Int.
Proof. vstart. unfold v_Int. keys_eq. reflexivity. Qed.
Lemma resp_Value : vresp v_Value.
Proof. vstart. unfold v_Value. par. Qed.
Lemma resp_BinOp : vresp v_BinOp.
Proof. vstart. unfold v_BinOp, v_parens_maybe. rewrite (symbol_par n n' Hs). par. Qed.

Lemma resp_BoolOp : vresp v_BoolOp.
Proof.
  vstart. unfold v_BoolOp, v_parens_maybe. par.
  destruct H as [| x y l l' [S1 D1] H]; [ reflexivity |].
  destruct H as [| x2 y2 l l' [S2 D2] H]; [ reflexivity |]. par.
Qed.

Lemma resp_Assert : vresp v_Assert.
Proof. vstart. unfold v_Assert. par. Qed.
Lemma resp_Str : vresp v_Str.
Proof. vstart. unfold v_Str. par. Qed.
Lemma resp_Module : vresp v_Module.
Proof. vstart. unfold v_Module. par. Qed.
Lemma resp_AnnAssign : vresp v_AnnAssign.
Proof. vstart. unfold v_AnnAssign, v_value_assignment. par. Qed.
Lemma resp_Expr : vresp v_Expr.
Proof. vstart. unfold v_Expr. par. Qed.
Lemma resp_Call : vresp v_Call.
Proof. vstart. unfold v_Call, v_array. par. Qed.

Lemma resp_NameConstant : vresp v_NameConstant.
Proof. vstart. unfold v_NameConstant. par. inversion S; reflexivity. Qed.
Lemma resp_UnaryOp : vresp v_UnaryOp.
Proof. vstart. unfold v_UnaryOp, v_parens_maybe. rewrite (unary_par n n' Hs). par. Qed.
Lemma resp_InterfaceDef : vresp v_InterfaceDef.
Proof. vstart. unfold v_InterfaceDef, v_body_nodes. par. Qed.
Lemma resp_StructDef : vresp v_StructDef.
Proof. vstart. unfold v_StructDef, v_body_nodes. par. Qed.
Lemma resp_For : vresp v_For.
Proof. vstart. unfold v_For, v_body_nodes. par. Qed.
Lemma resp_List : vresp v_List.
Proof. vstart. unfold v_List, v_array. par. Qed.
Lemma resp_If : vresp v_If.
Proof. vstart. unfold v_If, v_indented_body, v_indented. par. Qed.
Lemma resp_keyword_only : forall s, vresp (v_keyword_only s).
Proof. intro s. vstart. reflexivity. Qed.
Lemma resp_Return : vresp v_Return.
Proof. vstart. unfold v_Return. par. Qed.
Lemma resp_Raise : vresp v_Raise.
Proof. vstart. unfold v_Raise. par. Qed.
Lemma resp_Import : vresp v_Import.
Proof. vstart. unfold v_Import. par. Qed.
Lemma resp_ImportFrom : vresp v_ImportFrom.
Proof. vstart. unfold v_ImportFrom. par. Qed.
Lemma resp_block_def : forall s, vresp (v_block_def s).
Proof. intro s. vstart. unfold v_block_def, v_indented_body, v_indented. par. Qed.
Lemma resp_Log : vresp v_Log.
Proof. vstart. unfold v_Log. par. Qed.

Lemma resp_Comment : vresp v_Comment.
Proof.
  vstart. unfold v_Comment. par.
  assert (E : r c x = r' c y) by (apply Hr; split; assumption).
  inversion S; subst; cbn; try reflexivity; try (rewrite E; reflexivity).
Qed.

Lemma resp_And : vresp v_And.
Proof. vstart. unfold v_And. par. Qed.
Lemma resp_keyword : vresp v_keyword.
Proof. vstart. unfold v_keyword. par. Qed.
Lemma resp_Bytes : vresp v_Bytes.
Proof. vstart. unfold v_Bytes. par. Qed.

Lemma pairs_par : forall d f f' ks ks' vs vs',
  Forall2 (vunder d) ks ks' -> Forall2 (vunder d) vs vs' ->
  (forall x y, vunder d x y -> f x = f' y) ->
  v_pairs f ks vs = v_pairs f' ks' vs'.
Proof.
  intros d f f' ks ks' vs vs' H Hv Hf. revert vs vs' Hv.
  induction H as [| x y l l' Hxy H IH]; intros vs vs' Hv; [ destruct Hv; reflexivity |].
  destruct Hv as [| u v vs vs' Huv Hv]; [ reflexivity |]. cbn [v_pairs].
  rewrite (Hf x y Hxy), (Hf u v Huv), (IH _ _ Hv), (not_empty_par _ _ _ _ H). reflexivity.
Qed.

Lemma resp_Dict : vresp v_Dict.
Proof.
  vstart. unfold v_Dict. par.
  eapply pairs_par; [ eassumption | eassumption |]. intros; apply Hr; assumption.
Qed.

Lemma resp_dummy : vresp v_dummy.
Proof.
  vstart. unfold v_dummy. eapply children_par; try eassumption; auto.
Qed.

Lemma vy_table_resp : Forall (fun p => vresp (snd p)) vy_table.
Proof.
  unfold vy_table.
  repeat (constructor;
    [ cbn [snd];
      first [ exact resp_Name | exact resp_VariableDecl | exact resp_Subscript | exact resp_Index
            | exact resp_Tuple | exact resp_FunctionDef | exact resp_arguments | exact resp_arg
            | exact resp_Assign | exact resp_Attribute | exact resp_AugAssign | exact resp_Int
            | exact resp_Value | exact resp_BinOp | exact resp_BoolOp | exact resp_Assert
            | exact resp_Str | exact resp_Module | exact resp_AnnAssign | exact resp_Expr
            | exact resp_Call | exact resp_NameConstant | exact resp_UnaryOp
            | exact resp_InterfaceDef | exact resp_StructDef | exact resp_For | exact resp_List
            | exact resp_If | apply resp_keyword_only | exact resp_Return | exact resp_Raise
            | exact resp_Import | exact resp_ImportFrom | apply resp_block_def | exact resp_Log
            | exact resp_Comment | exact resp_And | exact resp_keyword | exact resp_Bytes
            | exact resp_Dict ] |]).
  constructor.
Qed.

Lemma vy_printer_resp : forall n, vresp (vy_printer_for n).
Proof.
  intro n. unfold vy_printer_for.
  destruct (get_str n "ast_type") as [ty |]; [| exact resp_dummy ].
  destruct (assoc ty vy_table) as [p |] eqn:E; [| exact resp_dummy ].
  exact (assoc_Forall _ vresp ty vy_table p vy_table_resp E).
Qed.

Lemma vy_printer_same : forall n n', vsim n n' -> vy_printer_for n = vy_printer_for n'.
Proof.
  intros n n' H. unfold vy_printer_for. rewrite (sim_get_str vkeys n n' "ast_type" H eq_refl).
  reflexivity.
Qed.

Lemma vy_emit_scalar : forall k c v, scalar v -> vy_emit_at k c v = [].
Proof. intros [| k] c v H; [ reflexivity |]. destruct v; try reflexivity; destruct H. Qed.

(** Enough fuel is enough, and bookkeeping does not matter. *)
Lemma vy_emit_par : forall d k k' c n n',
  vunder d n n' -> d <= k -> d <= k' -> vy_emit_at k c n = vy_emit_at k' c n'.
Proof.
  induction d as [d IH] using lt_wf_ind. intros k k' c n n' [Hs Hd] Hk Hk'.
  destruct k as [| k]; [ lia |]. destruct k' as [| k']; [ lia |]. cbn [vy_emit_at].
  rewrite <- (vy_printer_same n n' Hs).
  apply vy_printer_resp; [ exact Hs | | |].
  - intros c0 x y Hu. apply (IH (jdepth n)); [ exact Hd | exact Hu | lia | lia ].
  - intros; apply vy_emit_scalar; assumption.
  - intros; apply vy_emit_scalar; assumption.
Qed.

(** ** The equation of the printer *)

Lemma vy_emit_ignores : forall c n n',
  same_but vkeys n n' -> vy_emit c n = vy_emit c n'.
Proof.
  intros c n n' H. unfold vy_emit. rewrite <- (sim_jdepth vkeys n n' H).
  apply (vy_emit_par (S (jdepth n))); [ split; [ exact H | lia ] | lia | lia ].
Qed.

Lemma vy_emit_unfold : forall c n, vy_emit c n = vy_printer_for n c vy_emit n.
Proof.
  intros c n. unfold vy_emit at 1. cbn [vy_emit_at].
  apply vy_printer_resp.
  - apply sim_refl.
  - intros c0 x y [Hs Hd]. unfold vy_emit. rewrite <- (sim_jdepth vkeys x y Hs).
    apply (vy_emit_par (S (jdepth x))); [ split; [ exact Hs | lia ] | lia | lia ].
  - intros; apply vy_emit_scalar; assumption.
  - intros; apply vy_emit_scalar; assumption.
Qed.

(** ** Balance *)

Definition vbal (p : vcode) : Prop := forall c r n,
  (forall c v, balanced (r c v)) -> balanced (p c r n).

Lemma bal_doc : forall s, balanced (v_doc_string s).
Proof. intro s. unfold v_doc_string. bal. Qed.
#[local] Hint Resolve bal_doc : balance.

Lemma bal_decorators : forall f l, (forall v, balanced (f v)) -> balanced (v_decorators f l).
Proof. intros f l H. unfold v_decorators. bal. Qed.
#[local] Hint Resolve bal_decorators : balance.

Lemma bal_indented : forall f l, (forall v, balanced (f v)) -> balanced (v_indented f l).
Proof. intros f l H. unfold v_indented. bal. Qed.
#[local] Hint Resolve bal_indented : balance.

Lemma bal_args : forall f first args i defaults,
  (forall v, balanced (f v)) -> balanced (v_args f first i args defaults).
Proof.
  intros f first args. induction args as [| a args IH]; intros i defaults H; [ apply bal_nil |].
  cbn [v_args]. bal.
Qed.
#[local] Hint Resolve bal_args : balance.

Lemma bal_pairs : forall f ks vs, (forall v, balanced (f v)) -> balanced (v_pairs f ks vs).
Proof.
  intros f ks. induction ks as [| k ks IH]; intros vs H; [ destruct vs; apply bal_nil |].
  destruct vs as [| v vs]; [ apply bal_nil |]. cbn [v_pairs]. bal.
Qed.
#[local] Hint Resolve bal_pairs : balance.

Lemma bal_parens : forall f n, (forall v, balanced (f v)) -> balanced (v_parens_maybe f n).
Proof. intros f n H. unfold v_parens_maybe. bal. Qed.
#[local] Hint Resolve bal_parens : balance.

Lemma bal_array : forall f k n, (forall v, balanced (f v)) -> balanced (v_array f k n).
Proof. intros f k n H. unfold v_array. bal. Qed.
#[local] Hint Resolve bal_array : balance.

Lemma bal_value_assignment : forall f n, (forall v, balanced (f v)) -> balanced (v_value_assignment f n).
Proof. intros f n H. unfold v_value_assignment. bal. Qed.
#[local] Hint Resolve bal_value_assignment : balance.

Lemma bal_body_nodes : forall f n, (forall v, balanced (f v)) -> balanced (v_body_nodes f n).
Proof. intros f n H. unfold v_body_nodes. bal. Qed.
#[local] Hint Resolve bal_body_nodes : balance.

Lemma bal_indented_body : forall f n, (forall v, balanced (f v)) -> balanced (v_indented_body f n).
Proof. intros f n H. unfold v_indented_body. bal. Qed.
#[local] Hint Resolve bal_indented_body : balance.

Lemma bal_simple_value : forall f n, (forall v, balanced (f v)) -> balanced (v_simple_value f n).
Proof. intros f n H. unfold v_simple_value. bal. Qed.
#[local] Hint Resolve bal_simple_value : balance.

Lemma vy_table_bal : Forall (fun p => vbal (snd p)) vy_table.
Proof.
  unfold vy_table.
  repeat (constructor; [ cbn [snd]; intros c r n H |]); [ .. | constructor ].
  all: match goal with
       | |- balanced (v_keyword_only _ _ _ _) => unfold v_keyword_only
       | |- balanced (v_block_def _ _ _ _) => unfold v_block_def
       | |- balanced (?p _ _ _) => unfold p
       end; bal.
Qed.

Lemma vy_printer_bal : forall n, vbal (vy_printer_for n).
Proof.
  intro n. unfold vy_printer_for.
  destruct (get_str n "ast_type") as [ty |]; [ destruct (assoc ty vy_table) as [p |] eqn:E |].
  1: exact (assoc_Forall _ vbal ty vy_table p vy_table_bal E).
  all: intros c r m H; unfold v_dummy; bal.
Qed.

Lemma vy_emit_balanced : forall c n, balanced (vy_emit c n).
Proof.
  intros c n. unfold vy_emit. generalize (S (jdepth n)). intro k. revert c n.
  induction k as [| k IH]; intros c n; [ apply bal_nil |].
  cbn [vy_emit_at]. apply vy_printer_bal. exact IH.
Qed.
