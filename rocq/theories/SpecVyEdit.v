(** Vyper programs with comments in them, and one edit of a program. *)
From Coq Require Import String Ascii List NArith ZArith Bool.
From Verif Require Import Base Json MutationType SpecTree SpecLiteral SpecVyText.
Import ListNotations.
Open Scope string_scope.
Open Scope list_scope.

(** ** Nodes with comments between the statements *)

Definition a_comment (n : json) : Prop := is_a n "Comment".

(** The nodes stand for the elements of [l]; there may be comments before,
    between and after them. *)
Definition with_comments {A} (R : A -> json -> Prop) : list A -> list json -> Prop :=
  fix go l ns :=
    match l with
    | [] => Forall a_comment ns
    | a :: l => exists cs n more, ns = cs ++ n :: more /\ Forall a_comment cs /\ R a n /\ go l more
    end.

Fixpoint csnode (s : vstmt) (n : json) {struct s} : Prop :=
  let child {A} k (R : A -> json -> Prop) (e : A) := exists v, fld n k v /\ R e v in
  let block k l := exists ns, fld n k (JArr ns) /\ with_comments csnode l ns in
  match s with
  | VsIf e body orelse =>
      is_a n "If" /\ child "test" vnode e /\ block "body" body /\ block "orelse" orelse /\
      (orelse = [] -> fld n "orelse" (JArr []))
  | VsFor t it body => is_a n "For" /\ child "target" vnode t /\ child "iter" vnode it /\ block "body" body
  | _ => snode s n
  end.

Definition cdnode (d : vdef) (n : json) : Prop :=
  match d with
  | VdFun decs f args ret body =>
      head_node decs f args ret n /\ exists ns, fld n "body" (JArr ns) /\ with_comments csnode body ns
  | VdFields kw f body =>
      kw = "struct" /\ is_a n "StructDef" /\ fld n "name" (JStr f) /\
      exists ns, fld n "body" (JArr ns) /\ with_comments csnode body ns
  | VdBlock kw f body =>
      In (kw, true) [("event", true); ("enum", true)] /\
      is_a n (if kw =?s "event" then "EventDef" else "EnumDef") /\ fld n "name" (JStr f) /\
      exists ns, fld n "body" (JArr ns) /\ with_comments csnode body ns
  | _ => dnode d n
  end.

(** The module stands for the program [l], apart from the comments. *)
Definition cprogram_node (l : list vdef) (n : json) : Prop :=
  is_a n "Module" /\ missing n "doc_string" /\ exists ns, fld n "body" (JArr ns) /\ with_comments cdnode l ns.

(** ** One edit of a program *)

(** What an edit may concern: an expression, a statement, a definition, the
    whole program. *)
Inductive thing : Type := TE (e : vexp) | TS (s : vstmt) | TD (d : vdef) | TP (l : list vdef).

(** Where a tuple may stand without parentheses. *)
Inductive top_step (e e' : vexp) : vtop -> vtop -> Prop :=
| ts_one : top_step e e' (One e) (One e')
| ts_many : forall a b, top_step e e' (Many (a ++ e :: b)) (Many (a ++ e' :: b)).

(** [step c c' t t']: [c] is a part of [t], and [t'] is [t] with [c'] in that
    place. *)
Inductive step : thing -> thing -> thing -> thing -> Prop :=
| st_bin_l : forall op a a' b, step (TE a) (TE a') (TE (VBin op a b)) (TE (VBin op a' b))
| st_bin_r : forall op a b b', step (TE b) (TE b') (TE (VBin op a b)) (TE (VBin op a b'))
| st_cmp_l : forall op a a' b, step (TE a) (TE a') (TE (VCmp op a b)) (TE (VCmp op a' b))
| st_cmp_r : forall op a b b', step (TE b) (TE b') (TE (VCmp op a b)) (TE (VCmp op a b'))
| st_logic_1 : forall w a a' b l, step (TE a) (TE a') (TE (VLogic w a b l)) (TE (VLogic w a' b l))
| st_logic_2 : forall w a b b' l, step (TE b) (TE b') (TE (VLogic w a b l)) (TE (VLogic w a b' l))
| st_logic_3 : forall w a b u e e' v, step (TE e) (TE e') (TE (VLogic w a b (u ++ e :: v))) (TE (VLogic w a b (u ++ e' :: v)))
| st_not : forall a a', step (TE a) (TE a') (TE (VNot a)) (TE (VNot a'))
| st_invert : forall a a', step (TE a) (TE a') (TE (VInvert a)) (TE (VInvert a'))
| st_neg : forall a a', step (TE a) (TE a') (TE (VNeg a)) (TE (VNeg a'))
| st_attr : forall a a' x, step (TE a) (TE a') (TE (VAttr a x)) (TE (VAttr a' x))
| st_sub : forall a a' i l, step (TE a) (TE a') (TE (VSub a i l)) (TE (VSub a' i l))
| st_sub_1 : forall a i i' l, step (TE i) (TE i') (TE (VSub a i l)) (TE (VSub a i' l))
| st_sub_2 : forall a i u e e' v, step (TE e) (TE e') (TE (VSub a i (u ++ e :: v))) (TE (VSub a i (u ++ e' :: v)))
| st_call : forall f f' args kws, step (TE f) (TE f') (TE (VCall f args kws)) (TE (VCall f' args kws))
| st_call_arg : forall f u e e' v kws, step (TE e) (TE e') (TE (VCall f (u ++ e :: v) kws)) (TE (VCall f (u ++ e' :: v) kws))
| st_call_kw : forall f args x u e e' v,
    step (TE e) (TE e') (TE (VCall f args (u ++ (x, e) :: v))) (TE (VCall f args (u ++ (x, e') :: v)))
| st_list : forall u e e' v, step (TE e) (TE e') (TE (VList (u ++ e :: v))) (TE (VList (u ++ e' :: v)))
| st_tuple : forall u e e' v, step (TE e) (TE e') (TE (VTuple (u ++ e :: v))) (TE (VTuple (u ++ e' :: v)))
| st_dict_k : forall u e e' w v, step (TE e) (TE e') (TE (VDict (u ++ (e, w) :: v))) (TE (VDict (u ++ (e', w) :: v)))
| st_dict_v : forall u k e e' v, step (TE e) (TE e') (TE (VDict (u ++ (k, e) :: v))) (TE (VDict (u ++ (k, e') :: v)))
| st_expr : forall e e', step (TE e) (TE e') (TS (VsExpr e)) (TS (VsExpr e'))
| st_assign_t : forall e e' t t' v, top_step e e' t t' -> step (TE e) (TE e') (TS (VsAssign t v)) (TS (VsAssign t' v))
| st_assign_v : forall e e' t v v', top_step e e' v v' -> step (TE e) (TE e') (TS (VsAssign t v)) (TS (VsAssign t v'))
| st_aug_t : forall e e' op v, step (TE e) (TE e') (TS (VsAug e op v)) (TS (VsAug e' op v))
| st_aug_v : forall t op e e', step (TE e) (TE e') (TS (VsAug t op e)) (TS (VsAug t op e'))
| st_ann_t : forall e e' ty v, step (TE e) (TE e') (TS (VsAnn e ty v)) (TS (VsAnn e' ty v))
| st_ann_ty : forall t e e' v, step (TE e) (TE e') (TS (VsAnn t e v)) (TS (VsAnn t e' v))
| st_ann_v : forall t ty e e', step (TE e) (TE e') (TS (VsAnn t ty (Some e))) (TS (VsAnn t ty (Some e')))
| st_return : forall e e' t t', top_step e e' t t' -> step (TE e) (TE e') (TS (VsReturn (Some t))) (TS (VsReturn (Some t')))
| st_assert : forall e e' m, step (TE e) (TE e') (TS (VsAssert e m)) (TS (VsAssert e' m))
| st_assert_m : forall c e e', step (TE e) (TE e') (TS (VsAssert c (Some e))) (TS (VsAssert c (Some e')))
| st_raise : forall e e', step (TE e) (TE e') (TS (VsRaise e)) (TS (VsRaise e'))
| st_log : forall e e', step (TE e) (TE e') (TS (VsLog e)) (TS (VsLog e'))
| st_if : forall e e' b o, step (TE e) (TE e') (TS (VsIf e b o)) (TS (VsIf e' b o))
| st_if_body : forall e u s s' v o, step (TS s) (TS s') (TS (VsIf e (u ++ s :: v) o)) (TS (VsIf e (u ++ s' :: v) o))
| st_if_else : forall e b u s s' v, step (TS s) (TS s') (TS (VsIf e b (u ++ s :: v))) (TS (VsIf e b (u ++ s' :: v)))
| st_for_t : forall e e' i b, step (TE e) (TE e') (TS (VsFor e i b)) (TS (VsFor e' i b))
| st_for_i : forall t e e' b, step (TE e) (TE e') (TS (VsFor t e b)) (TS (VsFor t e' b))
| st_for_body : forall t i u s s' v, step (TS s) (TS s') (TS (VsFor t i (u ++ s :: v))) (TS (VsFor t i (u ++ s' :: v)))
| st_fun_dec : forall u e e' v f args ret body,
    step (TE e) (TE e') (TD (VdFun (u ++ e :: v) f args ret body)) (TD (VdFun (u ++ e' :: v) f args ret body))
| st_fun_type : forall decs f u x e e' d v ret body,
    step (TE e) (TE e') (TD (VdFun decs f (u ++ VArg x (Some e) d :: v) ret body)) (TD (VdFun decs f (u ++ VArg x (Some e') d :: v) ret body))
| st_fun_default : forall decs f u x ty e e' v ret body,
    step (TE e) (TE e') (TD (VdFun decs f (u ++ VArg x ty (Some e) :: v) ret body)) (TD (VdFun decs f (u ++ VArg x ty (Some e') :: v) ret body))
| st_fun_ret : forall decs f args e e' t t' body, top_step e e' t t' ->
    step (TE e) (TE e') (TD (VdFun decs f args (Some t) body)) (TD (VdFun decs f args (Some t') body))
| st_fun_body : forall decs f args ret u s s' v,
    step (TS s) (TS s') (TD (VdFun decs f args ret (u ++ s :: v))) (TD (VdFun decs f args ret (u ++ s' :: v)))
| st_var : forall e e' p c i ty v, step (TE e) (TE e') (TD (VdVar e p c i ty v)) (TD (VdVar e' p c i ty v))
| st_var_type : forall x p c i e e' t t' v, top_step e e' t t' -> step (TE e) (TE e') (TD (VdVar x p c i t v)) (TD (VdVar x p c i t' v))
| st_var_value : forall x p c i ty e e', step (TE e) (TE e') (TD (VdVar x p c i ty (Some e))) (TD (VdVar x p c i ty (Some e')))
| st_fields : forall kw f u s s' v, step (TS s) (TS s') (TD (VdFields kw f (u ++ s :: v))) (TD (VdFields kw f (u ++ s' :: v)))
| st_block : forall kw f u s s' v, step (TS s) (TS s') (TD (VdBlock kw f (u ++ s :: v))) (TD (VdBlock kw f (u ++ s' :: v)))
| st_program : forall u d d' v, step (TD d) (TD d') (TP (u ++ d :: v)) (TP (u ++ d' :: v)).

(** [t'] is [t] with one of its parts, at any depth, changed as [R] says. *)
Inductive edited (R : thing -> thing -> Prop) : thing -> thing -> Prop :=
| ed_here : forall t t', R t t' -> edited R t t'
| ed_inside : forall c c' t t', step c c' t t' -> edited R c c' -> edited R t t'.

(** ** The edits of the mutation operators *)

Definition arithmetic_symbols : list string := ["+"; "-"; "*"; "/"; "%"; "**"].
Definition bitwise_symbols : list string := ["&"; "|"; "^"].
Definition comparison_symbols : list string := ["=="; "!="; "<"; ">"; "<="; ">="].

(** Two different elements exchanged. *)
Definition swapped {A} (l l' : list A) : Prop :=
  exists a x b y c, l = a ++ x :: b ++ y :: c /\ l' = a ++ y :: b ++ x :: c.

(** What stands in for the only statement of a body. *)
Definition default_value (t : vtop) : Prop :=
  match t with
  | One (VConst _) | One (VInt _) | One (VStr _) => True
  | One (VList l) | Many l => Forall (eq (VConst None)) l
  | _ => False
  end.
Inductive filler : list vstmt -> Prop :=
| fi_none : filler []
| fi_pass : filler [VsWord "pass"]
| fi_return : forall t, default_value t -> filler [VsReturn (Some t)].

(** One statement out, or the only one replaced. *)
Inductive statement_deleted : list vstmt -> list vstmt -> Prop :=
| sd_some : forall a x b, a ++ b <> [] -> statement_deleted (a ++ x :: b) (a ++ b)
| sd_only : forall x l, filler l -> statement_deleted [x] l.

Definition not_return (s : vstmt) : Prop := forall t, s <> VsReturn t.
Definition lines_swapped (l l' : list vstmt) : Prop :=
  exists a x b y c, l = a ++ x :: b ++ y :: c /\ l' = a ++ y :: b ++ x :: c /\ not_return x /\ not_return y.

(** An edit of the body of a function, a loop or a branch. *)
Inductive body_edit (R : list vstmt -> list vstmt -> Prop) : thing -> thing -> Prop :=
| be_fun : forall decs f args ret b b', R b b' -> body_edit R (TD (VdFun decs f args ret b)) (TD (VdFun decs f args ret b'))
| be_for : forall t i b b', R b b' -> body_edit R (TS (VsFor t i b)) (TS (VsFor t i b'))
| be_if : forall e b b' o, R b b' -> body_edit R (TS (VsIf e b o)) (TS (VsIf e b' o)).

Inductive vy_edit : mutation_type -> thing -> thing -> Prop :=
| ve_arithmetic : forall op op' a b, In op arithmetic_symbols -> In op' arithmetic_symbols -> op' <> op ->
    vy_edit (Generic ArithmeticBinaryOp) (TE (VBin op a b)) (TE (VBin op' a b))
| ve_bitwise : forall op op' a b, In op bitwise_symbols -> In op' bitwise_symbols -> op' <> op ->
    vy_edit (Generic BitwiseBinaryOp) (TE (VBin op a b)) (TE (VBin op' a b))
| ve_comparison : forall op op' a b, In op comparison_symbols -> In op' comparison_symbols -> op' <> op ->
    vy_edit (Generic ComparisonBinaryOp) (TE (VCmp op a b)) (TE (VCmp op' a b))
| ve_logical : forall w a b l, vy_edit (Generic LogicalBinaryOp) (TE (VLogic w a b l)) (TE (VLogic (negb w) a b l))
| ve_swap_binary : forall op a b, In op ["-"; "/"; "%"; "**"] ->
    vy_edit (Generic SwapOperatorArguments) (TE (VBin op a b)) (TE (VBin op b a))
| ve_swap_compare : forall op a b, In op ["<"; ">"; "<="; ">="] ->
    vy_edit (Generic SwapOperatorArguments) (TE (VCmp op a b)) (TE (VCmp op b a))
| ve_not : forall a, vy_edit (Generic UnaryOp) (TE (VNot a)) (TE a)
| ve_invert : forall a, vy_edit (Generic UnaryOp) (TE (VInvert a)) (TE a)
| ve_neg : forall a, vy_edit (Generic UnaryOp) (TE (VNeg a)) (TE a)
| ve_assign_int : forall t v z, vy_edit (Generic Assignment) (TS (VsAssign t v)) (TS (VsAssign t (One (VInt z))))
| ve_assign_bool : forall t v b, vy_edit (Generic Assignment) (TS (VsAssign t v)) (TS (VsAssign t (One (VConst (Some b)))))
| ve_assign_decimal : forall t v s, vy_edit (Generic Assignment) (TS (VsAssign t v)) (TS (VsAssign t (One (VVerbatim false s))))
| ve_call : forall f args kws e, In e args -> vy_edit (Generic FunctionCall) (TE (VCall f args kws)) (TE e)
| ve_swap_args : forall f args args' kws, swapped args args' ->
    vy_edit (Generic SwapFunctionArguments) (TE (VCall f args kws)) (TE (VCall f args' kws))
| ve_if_const : forall e b o c, vy_edit (Generic IfStatement) (TS (VsIf e b o)) (TS (VsIf (VConst (Some c)) b o))
| ve_if_not : forall e b o, vy_edit (Generic IfStatement) (TS (VsIf e b o)) (TS (VsIf (VNot e) b o))
| ve_int : forall z z', vy_edit (Generic Integer) (TE (VInt z)) (TE (VInt z'))
| ve_delete : forall t t', body_edit statement_deleted t t' -> vy_edit (Generic DeleteStatement) t t'
| ve_delete_def : forall a d b, a ++ b <> [] -> vy_edit (Generic DeleteStatement) (TP (a ++ d :: b)) (TP (a ++ b))
| ve_swap_lines : forall t t', body_edit lines_swapped t t' -> vy_edit (Generic SwapLines) t t'.

(** [l'] is [l] with one edit of the kind [t]. *)
Definition one_edit (t : mutation_type) (l l' : list vdef) : Prop := edited (vy_edit t) (TP l) (TP l').

(** ** Trees of a program and nothing else *)

(** The keys under which the nodes of each type keep their parts. *)
Definition part_keys (ty : string) : list string :=
  match assoc ty
    [ ("BinOp", ["op"; "left"; "right"]); ("Compare", ["op"; "left"; "right"]); ("BoolOp", ["op"; "values"]);
      ("UnaryOp", ["op"; "operand"]); ("Attribute", ["value"]); ("Subscript", ["value"; "slice"]); ("Index", ["value"]);
      ("Call", ["func"; "args"; "keywords"]); ("keyword", ["value"]); ("List", ["elements"]); ("Tuple", ["elements"]);
      ("Dict", ["keys"; "values"]); ("Expr", ["value"]); ("Assign", ["target"; "value"]);
      ("AugAssign", ["op"; "target"; "value"]); ("AnnAssign", ["target"; "annotation"; "value"]); ("Return", ["value"]);
      ("Assert", ["test"; "msg"]); ("Raise", ["exc"]); ("Log", ["value"]); ("If", ["test"; "body"; "orelse"]);
      ("For", ["target"; "iter"; "body"]); ("FunctionDef", ["decorator_list"; "args"; "returns"; "body"]);
      ("arguments", ["args"; "defaults"]); ("arg", ["annotation"]); ("VariableDecl", ["target"; "annotation"; "value"]);
      ("StructDef", ["body"]); ("EventDef", ["body"]); ("EnumDef", ["body"]); ("Module", ["body"]) ] with
  | Some l => l
  | None => []
  end.

(** No object anywhere in it. *)
Fixpoint without_objects (j : json) : bool :=
  match j with JObj _ => false | JArr l => forallb without_objects l | _ => true end.

Definition ast_type (o : list (string * json)) : string :=
  match assoc "ast_type" o with Some (JStr s) => s | _ => "" end.

Fixpoint once (l : list string) : bool := match l with [] => true | k :: l => negb (smem k l) && once l end.

(** Every object is kept under one of the keys of its node, and no key occurs
    twice. *)
Fixpoint lean (j : json) : bool :=
  match j with
  | JObj o =>
      once (map fst o) &&
      (fix go (r : list (string * json)) :=
         match r with
         | [] => true
         | (k, v) :: r => (without_objects v || (smem k (part_keys (ast_type o)) && lean v)) && go r
         end) o
  | JArr l => forallb lean l
  | _ => true
  end.

(** No comments in the tree; all integers of it fit into 64 bits. *)
Definition uncommented (ast : json) : Prop := forall p n, subtree p ast = Some n -> ~ a_comment n.
Definition small_ints (ast : json) : Prop :=
  forall p n, subtree p ast = Some n -> is_a n "Int" -> exists z, fld n "value" (jint z) /\ in_i64 z = true.

Definition no_interface (d : vdef) : Prop := match d with VdInterface _ _ => False | _ => True end.
