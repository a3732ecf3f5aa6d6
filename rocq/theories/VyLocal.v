(** The Vyper node printers print each sub-node in one place. *)
From Coq Require Import String Ascii List NArith ZArith Arith Bool Lia.
From Verif Require Import Base Json JsonFacts Printer VyMutators VyPrinter SpecTree SpecPrinter SpecLocal SpecVyLocal EmitFacts VyEmit LocalFacts.
Import ListNotations.
Open Scope string_scope.
Open Scope list_scope.

Section Local.
Variables x x' : json.
Hypothesis H_both : both x x'.
Hypothesis H_alike : vy_alike_for_parent x x'.

Notation D := (dif vy_inspected no_vy_comment x x').
Notation Q := (changed_at vy_emit x x').

Definition vlocal (p : vcode) : Prop := forall c n n' k v v' b,
  only k v v' n n' -> D b v v' -> (b = false -> ~ In k vy_inspected) ->
  (forall c u u' b, D b u u' -> jdepth u <= jdepth v -> Q (vy_emit c u) (vy_emit c u')) ->
  Q (p c vy_emit n) (p c vy_emit n').

Lemma smem_spec : forall s l, smem s l = true <-> In s l.
Proof.
  induction l as [|y l IH]; cbn [smem In]; [split; [discriminate|tauto]|].
  destruct (String.eqb_spec s y); [subst; tauto|]. rewrite IH. intuition congruence.
Qed.

Lemma Q_parens : forall b u u' (f : json -> list cmd), D b u u' -> Q (f u) (f u') -> Q (v_parens_maybe f u) (v_parens_maybe f u').
Proof.
  intros b u u' f H F. unfold v_parens_maybe.
  assert (T : match get_str u "ast_type" with
    | Some s => exists s', get_str u' "ast_type" = Some s' /\ smem s vy_operations = smem s' vy_operations
    | None => get_str u' "ast_type" = None end).
  { destruct b.
    - rewrite (dif_get_str _ _ _ _ _ _ "ast_type" H_both H eq_refl). destruct (get_str u' "ast_type"); eauto.
    - inversion H; subst; [|reflexivity]. destruct H_alike as (s & s' & -> & -> & A). exists s'. split; [reflexivity|].
      rewrite <- !smem_spec in A. destruct (smem s vy_operations), (smem s' vy_operations); intuition congruence. }
  destruct (get_str u "ast_type") as [s|]; [destruct T as (s' & -> & T)|rewrite T; apply Not_shown]. cbn [opt].
  change ["BinOp"; "Compare"; "BoolOp"] with vy_operations. cbv zeta. rewrite T. apply Q_left, Q_right, F.
Qed.

Ltac start := intros c n n' k v v' b O HD HK IH.
Ltac reads :=
  unfold v_simple_value, v_array, v_value_assignment, v_body_nodes, v_indented_body, v_indented, flag, sub, arr_of;
  unfold get_str, get_bool, get_int, get_float, get_array; cbv zeta; rewrite ?kget_plain by reflexivity.

(** All keys read from the node: they agree, or one of them is the changed one. *)
Ltac split_keys :=
  repeat match goal with
  | O : only ?k ?v ?v' ?n ?n' |- context [oget ?n ?s] =>
      is_var k; let E := fresh "E" in
      destruct (O s) as [->|(E & -> & ->)]; [|subst k]
  | O : only (String ?a ?t) ?v ?v' ?n ?n' |- context [oget ?n ?s] =>
      let E := fresh "E" in destruct (O s) as [->|(E & _ & _)]; [|discriminate E]
  end.

Ltac scalars HD :=
  destruct (dif_as_str _ _ _ _ _ _ _ H_both HD) as (?S1 & ?S2);
  destruct (dif_as_bool _ _ _ _ _ _ _ H_both HD) as (?B1 & ?B2);
  destruct (dif_as_i64 _ _ _ _ _ _ _ H_both HD) as (?I1 & ?I2);
  destruct (dif_as_f64 _ _ _ _ _ _ _ H_both HD) as (?F1 & ?F2);
  destruct (dif_is_null _ _ _ _ _ _ _ H_both HD) as (?N1 & ?N2);
  rewrite ?S1, ?S2, ?B1, ?B2, ?I1, ?I2, ?F1, ?F2, ?N1, ?N2.

Ltac arrays HD :=
  try match goal with
  | |- context [as_array ?v] =>
      let l1 := fresh "l1" in let u := fresh "u" in let u' := fresh "u'" in let l2 := fresh "l2" in
      let A := fresh "A" in let A' := fresh "A'" in let DU := fresh "DU" in let LT := fresh "LT" in
      destruct (dif_as_array _ _ _ _ _ _ _ H_both HD) as [(A & A')|(l1 & u & u' & l2 & A & A' & DU & LT)];
      rewrite ?A, ?A'
  end.

Ltac walk :=
  repeat first
  [ progress cbn [opt]
  | match goal with
    | |- changed_at _ _ _ ?a ?a => apply Not_shown
    | |- changed_at _ _ _ (?a ++ _) (?a ++ _) => apply Q_left
    | |- changed_at _ _ _ (_ ++ ?b) (_ ++ ?b) => apply Q_right
    | |- changed_at _ _ _ (?a :: _) (?a :: _) => apply Q_cons
    | |- changed_at _ _ _ (when ?c _) (when ?c _) => apply Q_when
    | |- changed_at _ _ _ (each _ _ (_ ++ _ :: _)) _ => apply Q_each; [cbn beta|try reflexivity]
    | |- changed_at _ _ _ (commas _ (_ ++ _ :: _)) _ => apply Q_commas
    | |- changed_at _ _ _ (flat_map _ (_ ++ _ :: _)) _ => apply Q_flat_map
    | |- changed_at _ _ _ (v_parens_maybe _ _) _ => eapply Q_parens; [eassumption|]
    | IH : forall c u u' b, dif _ _ _ _ b u u' -> _ |- changed_at _ _ _ (vy_emit ?c ?u) (vy_emit ?c ?u') =>
        eapply IH; [eassumption|lia]
    end
  | progress rewrite ?not_empty_mid
  | progress cbn [when]
  | match goal with
    | HD : dif _ _ _ _ _ ?v ?v' |- context [is_null ?v] => destruct (dif_is_null _ _ _ _ _ _ _ H_both HD) as (-> & ->)
    | HD : dif _ _ _ _ _ ?v ?v' |- context [is_object ?v] => rewrite (dif_is_object _ _ _ _ _ _ _ H_both HD)
    | |- changed_at _ _ _ (opt ?o _) (opt ?o _) => destruct o; [|apply Not_shown]
    | |- changed_at _ _ _ (if ?o then _ else _) (if ?o then _ else _) => destruct o
    end ].

Ltac local :=
  start; reads; split_keys; [try apply Not_shown | ..];
  repeat match goal with HD : dif _ _ _ _ _ ?v ?v' |- context [as_str ?v] => scalars HD | HD : dif _ _ _ _ _ ?v ?v' |- context [as_bool ?v] => scalars HD
    | HD : dif _ _ _ _ _ ?v ?v' |- context [as_i64 ?v] => scalars HD | HD : dif _ _ _ _ _ ?v ?v' |- context [as_f64 ?v] => scalars HD
    | HD : dif _ _ _ _ _ ?v ?v' |- context [is_null ?v] => scalars HD end;
  try match goal with HD : dif _ _ _ _ _ ?v ?v' |- context [as_array ?v] => arrays HD end;
  walk.

(** Where the parent looks into the node: then the change is deeper. *)
Lemma deeper : forall b k, (b = false -> ~ In k vy_inspected) -> In k vy_inspected -> b = true.
Proof. intros [] k H I; [reflexivity|]. now destruct (H eq_refl). Qed.

Ltac deep := match goal with HK : ?b = false -> ~ In ?k _ |- _ =>
  assert (b = true) by (apply (deeper b k HK); cbn; tauto); subst b; clear HK end.

Lemma symbol_kept : forall k v v' b n n', only k v v' n n' -> D b v v' -> (b = false -> ~ In k vy_inspected) -> v_symbol n = v_symbol n'.
Proof.
  intros k v v' b n n' O HD HK. unfold v_symbol. destruct (O "op") as [->|(K & -> & ->)]; [reflexivity|]. subst k. deep.
  now rewrite (dif_get_str _ _ _ _ _ _ "ast_type" H_both HD eq_refl).
Qed.
Lemma unary_kept : forall k v v' b n n', only k v v' n n' -> D b v v' -> (b = false -> ~ In k vy_inspected) -> v_unary_op n = v_unary_op n'.
Proof.
  intros k v v' b n n' O HD HK. unfold v_unary_op. destruct (O "op") as [->|(K & -> & ->)]; [reflexivity|]. subst k. deep.
  now rewrite (dif_get_str _ _ _ _ _ _ "ast_type" H_both HD eq_refl).
Qed.

Lemma Q_decorators : forall f l1 u u' l2, Q (f u) (f u') -> Q (v_decorators f (l1 ++ u :: l2)) (v_decorators f (l1 ++ u' :: l2)).
Proof.
  intros f [|y l1] u u' l2 F; cbn [app v_decorators].
  - apply Q_cons, Q_right, F.
  - apply Q_cons, Q_left. change ([Newline] ++ ?a) with (Newline :: a). apply Q_cons, Q_flat_map. do 2 apply Q_cons. apply Q_right, F.
Qed.

Lemma Q_args_arg : forall f first defaults l1 u u' l2 i, Q (f u) (f u') ->
  Q (v_args f first i (l1 ++ u :: l2) defaults) (v_args f first i (l1 ++ u' :: l2) defaults).
Proof.
  intros f first defaults. induction l1 as [|y l1 IH]; intros u u' l2 i F; cbn [app v_args].
  - apply Q_right, F.
  - rewrite !not_empty_mid. do 3 apply Q_left. apply IH, F.
Qed.

Lemma nth_mid : forall l1 (u u' : json) l2 j, j <> length l1 -> nth_error (l1 ++ u :: l2) j = nth_error (l1 ++ u' :: l2) j.
Proof.
  induction l1 as [|y l1 IH]; intros u u' l2 [|j] H; cbn [app nth_error length] in *; try reflexivity; [congruence|]. apply IH. congruence.
Qed.
Lemma nth_mid_at : forall l1 (u : json) l2, nth_error (l1 ++ u :: l2) (length l1) = Some u.
Proof. induction l1 as [|y l1 IH]; intros u l2; [reflexivity|]. apply IH. Qed.

Lemma args_past : forall f first l1 u u' l2 args i, first + length l1 < i ->
  v_args f first i args (l1 ++ u :: l2) = v_args f first i args (l1 ++ u' :: l2).
Proof.
  intros f first l1 u u' l2. induction args as [|a args IH]; intros i L; [reflexivity|]. cbn [v_args].
  rewrite IH by lia. rewrite (nth_mid l1 u u' l2) by lia. reflexivity.
Qed.

Lemma Q_args_default : forall f first l1 u u' l2 args i, Q (f u) (f u') ->
  Q (v_args f first i args (l1 ++ u :: l2)) (v_args f first i args (l1 ++ u' :: l2)).
Proof.
  intros f first l1 u u' l2. induction args as [|a args IH]; intros i F; [apply Not_shown|]. cbn [v_args].
  apply Q_left. destruct (Nat.eq_dec i (first + length l1)) as [->|N].
  - rewrite (args_past f first l1 u u' l2 args (S (first + length l1))) by lia. apply Q_right.
    replace (Nat.leb first (first + length l1)) with true by (symmetry; apply Nat.leb_le; lia).
    replace (first + length l1 - first) with (length l1) by lia. rewrite !nth_mid_at. apply Q_cons, F.
  - destruct (Nat.leb first i) eqn:L.
    + apply Nat.leb_le in L. rewrite (nth_mid l1 u u' l2) by lia. do 2 apply Q_left. apply IH, F.
    + do 2 apply Q_left. apply IH, F.
Qed.

Lemma Q_pair_keys : forall f l1 u u' l2 vs, Q (f u) (f u') -> Q (v_pairs f (l1 ++ u :: l2) vs) (v_pairs f (l1 ++ u' :: l2) vs).
Proof.
  intros f. induction l1 as [|y l1 IH]; intros u u' l2 vs F; destruct vs as [|z vs]; cbn [app v_pairs]; try apply Not_shown.
  - apply Q_cons, Q_right, F.
  - rewrite !not_empty_mid. apply Q_cons, Q_left. do 2 apply Q_cons. apply Q_left, Q_left, IH, F.
Qed.
Lemma Q_pair_values : forall f l1 u u' l2 ks, Q (f u) (f u') -> Q (v_pairs f ks (l1 ++ u :: l2)) (v_pairs f ks (l1 ++ u' :: l2)).
Proof.
  intros f. induction l1 as [|y l1 IH]; intros u u' l2 ks F; destruct ks as [|z ks]; cbn [app v_pairs]; try apply Not_shown.
  - apply Q_cons, Q_left. do 2 apply Q_cons. apply Q_right, F.
  - apply Q_cons, Q_left. do 2 apply Q_cons. apply Q_left, Q_left, IH, F.
Qed.

Lemma loc_Name : vlocal v_Name.
Proof. unfold v_Name. local. Qed.
Lemma loc_VariableDecl : vlocal v_VariableDecl.
Proof. unfold v_VariableDecl. local. Qed.
Lemma loc_Subscript : vlocal v_Subscript.
Proof. unfold v_Subscript. local. Qed.
Lemma loc_Index : vlocal v_Index.
Proof. unfold v_Index. local. Qed.
Lemma loc_Tuple : vlocal v_Tuple.
Proof. unfold v_Tuple. local. Qed.
Lemma loc_FunctionDef : vlocal v_FunctionDef.
Proof.
  unfold v_FunctionDef. local.
  - deep. pose proof (dif_get_str _ _ _ _ _ _ "value" H_both HD eq_refl) as M. unfold get_str in M. rewrite M. apply Not_shown.
  - apply Q_decorators. eapply IH; [eassumption|lia].
Qed.
Lemma loc_arguments : vlocal v_arguments.
Proof.
  unfold v_arguments. local; rewrite (length_mid _ l1 u u' l2).
  - destruct (Nat.leb _ _); [apply Q_args_arg; eapply IH; [eassumption|lia]|]. destruct (vc_oc c); [apply Not_shown|]. apply Q_commas. eapply IH; [eassumption|lia].
  - destruct (Nat.leb _ _); [|apply Not_shown]. apply Q_args_default. eapply IH; [eassumption|lia].
Qed.
Lemma loc_arg : vlocal v_arg.
Proof. unfold v_arg. local. Qed.
Lemma loc_Assign : vlocal v_Assign.
Proof. unfold v_Assign. local. Qed.
Lemma loc_Attribute : vlocal v_Attribute.
Proof. unfold v_Attribute. local. Qed.
Lemma loc_AugAssign : vlocal v_AugAssign.
Proof.
  unfold v_AugAssign. start. rewrite (symbol_kept k v v' b n n' O HD HK). revert c n n' k v v' b O HD HK IH. local.
Qed.
Lemma loc_Int : vlocal v_Int.
Proof. unfold v_Int. local. Qed.
Lemma loc_Value : vlocal v_Value.
Proof. unfold v_Value. local. Qed.
Lemma loc_BinOp : vlocal v_BinOp.
Proof.
  unfold v_BinOp. start. rewrite (symbol_kept k v v' b n n' O HD HK). revert c n n' k v v' b O HD HK IH. local.
Qed.
Lemma loc_BoolOp : vlocal v_BoolOp.
Proof.
  unfold v_BoolOp. local.
  - destruct l as [|y [|z l]]; try apply Not_shown. apply Q_left, Q_left, Q_right. eapply IH; [eassumption|lia].
  - destruct l1 as [|y [|z l1]]; [destruct l2 as [|z l2]| |]; cbn [app]; try apply Not_shown.
    + apply Q_right. eapply Q_parens; [eassumption|]. eapply IH; [eassumption|lia].
    + apply Q_left, Q_cons, Q_left, Q_cons. eapply Q_parens; [eassumption|]. eapply IH; [eassumption|lia].
Qed.
Lemma loc_Assert : vlocal v_Assert.
Proof. unfold v_Assert. local. Qed.
Lemma loc_Str : vlocal v_Str.
Proof. unfold v_Str. local. Qed.
Lemma loc_Module : vlocal v_Module.
Proof.
  unfold v_Module. local. deep. pose proof (dif_get_str _ _ _ _ _ _ "value" H_both HD eq_refl) as M. unfold get_str in M. rewrite M. apply Not_shown.
Qed.
Lemma loc_AnnAssign : vlocal v_AnnAssign.
Proof. unfold v_AnnAssign. local. Qed.
Lemma loc_Expr : vlocal v_Expr.
Proof. unfold v_Expr. local. Qed.
Lemma loc_Call : vlocal v_Call.
Proof. unfold v_Call. local. Qed.
Lemma loc_NameConstant : vlocal v_NameConstant.
Proof.
  unfold v_NameConstant. local.
  destruct (dif_kind _ _ _ _ _ _ _ H_both HD) as [(l & l' & -> & ->)|(o & o' & -> & ->)]; apply Not_shown.
Qed.
Lemma loc_UnaryOp : vlocal v_UnaryOp.
Proof.
  unfold v_UnaryOp. start. rewrite (unary_kept k v v' b n n' O HD HK). revert c n n' k v v' b O HD HK IH. local.
Qed.
Lemma loc_InterfaceDef : vlocal v_InterfaceDef.
Proof. unfold v_InterfaceDef. local. Qed.
Lemma loc_StructDef : vlocal v_StructDef.
Proof. unfold v_StructDef. local. Qed.
Lemma loc_For : vlocal v_For.
Proof. unfold v_For. local. Qed.
Lemma loc_List : vlocal v_List.
Proof. unfold v_List. local. Qed.
Lemma loc_If : vlocal v_If.
Proof. unfold v_If. local. Qed.
Lemma loc_keyword_only : forall s, vlocal (v_keyword_only s).
Proof. intro s. start. apply Not_shown. Qed.
Lemma loc_Return : vlocal v_Return.
Proof. unfold v_Return. local. Qed.
Lemma loc_Raise : vlocal v_Raise.
Proof. unfold v_Raise. local. Qed.
Lemma loc_Import : vlocal v_Import.
Proof. unfold v_Import. local. Qed.
Lemma loc_ImportFrom : vlocal v_ImportFrom.
Proof.
  unfold v_ImportFrom. local; destruct (dif_as_str _ _ _ _ _ _ _ H_both HD) as (-> & ->); apply Not_shown.
Qed.
Lemma loc_block_def : forall s, vlocal (v_block_def s).
Proof. intro s. unfold v_block_def. local. Qed.
Lemma loc_Log : vlocal v_Log.
Proof. unfold v_Log. local. Qed.
Lemma loc_And : vlocal v_And.
Proof. unfold v_And. local. Qed.
Lemma loc_keyword : vlocal v_keyword.
Proof. unfold v_keyword. local. Qed.
Lemma loc_Bytes : vlocal v_Bytes.
Proof. unfold v_Bytes. local. Qed.
Lemma loc_Dict : vlocal v_Dict.
Proof.
  unfold v_Dict. local; rewrite (length_mid _ l1 u u' l2); (destruct (Nat.eqb _ _); [|apply Not_shown]).
  - apply Q_when, Q_left, Q_right, Q_pair_values. eapply IH; [eassumption|lia].
  - apply Q_left, Q_right, Q_pair_keys. eapply IH; [eassumption|lia].
Qed.
Lemma loc_dummy : forall c n n' b, D b n n' -> (b = false -> exists l, n = JArr l) ->
  (forall c u u' b, D b u u' -> jdepth u < jdepth n -> Q (vy_emit c u) (vy_emit c u')) ->
  Q (v_dummy c vy_emit n) (v_dummy c vy_emit n').
Proof.
  intros c n n' b H A IH. unfold v_dummy. inversion H; subst.
  - destruct (A eq_refl) as (l & E). destruct H_both as ((o & E') & _). congruence.
  - cbn [children]. apply Q_flat_map. eapply IH; [eassumption|apply jdepth_mid].
  - cbn [children]. rewrite !map_app. cbn [map snd]. apply Q_flat_map. eapply IH; [eassumption|].
    eapply jdepth_value. apply in_or_app. right. now left.
Qed.

Lemma loc_table : Forall (fun e => fst e <> "Comment" -> vlocal (snd e)) vy_table.
Proof.
  unfold vy_table. repeat (apply Forall_cons || apply Forall_nil); cbn [fst snd]; intros NC;
    first [ apply loc_keyword_only | apply loc_block_def | exfalso; now apply NC | idtac ].
  all: first [exact loc_Name | exact loc_VariableDecl | exact loc_Subscript | exact loc_Index | exact loc_Tuple | exact loc_FunctionDef | exact loc_arguments | exact loc_arg | exact loc_Assign | exact loc_Attribute | exact loc_AugAssign | exact loc_Int | exact loc_Value | exact loc_BinOp | exact loc_BoolOp | exact loc_Assert | exact loc_Str | exact loc_Module | exact loc_AnnAssign | exact loc_Expr | exact loc_Call | exact loc_NameConstant | exact loc_UnaryOp | exact loc_InterfaceDef | exact loc_StructDef | exact loc_For | exact loc_List | exact loc_If | exact loc_Return | exact loc_Raise | exact loc_Import | exact loc_ImportFrom | exact loc_Log | exact loc_And | exact loc_keyword | exact loc_Bytes | exact loc_Dict].
Qed.

Theorem emit_changed : forall d n n' c b, jdepth n < d -> D b n n' -> Q (vy_emit c n) (vy_emit c n').
Proof.
  induction d as [|d IHd]; intros n n' c b L H; [lia|].
  assert (IH : forall c u u' b, D b u u' -> jdepth u < jdepth n -> Q (vy_emit c u) (vy_emit c u'))
    by (intros c' u u' b' Du Lu; eapply IHd; [lia|exact Du]).
  destruct b.
  - rewrite !vy_emit_unfold. unfold vy_printer_for.
    rewrite (dif_get_str _ _ _ _ _ _ "ast_type" H_both H eq_refl).
    assert (Y : Q (v_dummy c vy_emit n) (v_dummy c vy_emit n')) by (eapply loc_dummy; [exact H|discriminate|exact IH]).
    destruct (get_str n' "ast_type") as [ty|] eqn:T; [|exact Y]. destruct (assoc ty vy_table) as [p|] eqn:P; [|exact Y].
    destruct (dif_only _ _ _ _ _ _ H) as (k & v & v' & b & O & E & HK & LT).
    apply assoc_In_pair in P. pose proof (proj1 (Forall_forall _ _) loc_table _ P) as LP. cbn [fst snd] in LP.
    eapply LP; try eassumption.
    + intros ->. rewrite <- (dif_get_str _ _ _ _ _ _ "ast_type" H_both H eq_refl) in T. inversion H; subst; [discriminate T|].
      match goal with N : no_vy_comment _ |- _ => exact (N T) end.
    + intros c' u u' b' Du Lu. eapply IH; [exact Du|lia].
  - inversion H; subst; [apply Q_print|].
    rewrite !vy_emit_unfold. change (Q (v_dummy c vy_emit (JArr (l1 ++ v :: l2))) (v_dummy c vy_emit (JArr (l1 ++ v' :: l2)))).
    eapply loc_dummy; [exact H|eauto|exact IH].
Qed.
End Local.
