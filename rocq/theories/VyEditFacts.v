(** What an operator makes of a node of a Vyper program, said of the program. *)
From Coq Require Import String Ascii List NArith ZArith Bool Lia.
From Verif Require Import Base Json JsonFacts MutationType OpCommon SpecTree SpecMutation SpecLiteral SpecOps SpecTotal SpecAccept SpecReach SpecPlain SpecVyText SpecVyEdit
  VyText VyTextStmt LocalFacts VyPlace.
Import ListNotations.
Open Scope string_scope.
Open Scope list_scope.

(** ** Types of nodes *)

Definition types (t : thing) : list string :=
  match t with
  | TE (VName _) => ["Name"] | TE (VInt _) => ["Int"] | TE (VVerbatim _ _) => ["Hex"; "Decimal"] | TE (VStr _) => ["Str"]
  | TE (VBytes _) => ["Bytes"] | TE (VConst _) => ["NameConstant"] | TE (VBin _ _ _) => ["BinOp"] | TE (VCmp _ _ _) => ["Compare"]
  | TE (VLogic _ _ _ _) => ["BoolOp"] | TE (VNot _) | TE (VInvert _) | TE (VNeg _) => ["UnaryOp"] | TE (VAttr _ _) => ["Attribute"]
  | TE (VSub _ _ _) => ["Subscript"] | TE (VCall _ _ _) => ["Call"] | TE (VList _) => ["List"] | TE (VTuple _) => ["Tuple"] | TE (VDict _) => ["Dict"]
  | TS (VsExpr _) => ["Expr"] | TS (VsAssign _ _) => ["Assign"] | TS (VsAug _ _ _) => ["AugAssign"] | TS (VsAnn _ _ _) => ["AnnAssign"]
  | TS (VsReturn _) => ["Return"] | TS (VsAssert _ _) => ["Assert"] | TS (VsRaise _) => ["Raise"] | TS (VsLog _) => ["Log"]
  | TS (VsWord _) => ["Pass"; "Break"; "Continue"] | TS (VsIf _ _ _) => ["If"] | TS (VsFor _ _ _) => ["For"]
  | TD (VdFun _ _ _ _ _) => ["FunctionDef"] | TD (VdVar _ _ _ _ _ _) => ["VariableDecl"] | TD (VdFields _ _ _) => ["StructDef"]
  | TD (VdInterface _ _) => ["InterfaceDef"] | TD (VdBlock _ _ _) => ["EventDef"; "EnumDef"] | TD (VdImport _ _) => ["Import"] | TD (VdFrom _ _ _) => ["ImportFrom"]
  | TP _ => ["Module"]
  end.

Lemma any_type : forall t n, any t n -> exists ty, is_a n ty /\ In ty (types t).
Proof.
  intros [e|s|d|l] n H; cbn [any] in H.
  - destruct e as [| |hex| | | | | | | | | | | | | | |]; cbn [vnode] in H; try (destruct H as (A & _); eexists; split; [exact A|]; cbn [types]; try (left; reflexivity)).
    destruct hex; cbn; auto.
  - destruct s; cbn [csnode snode] in H; try (destruct H as (A & _); eexists; split; [exact A|]; left; reflexivity).
    destruct H as (ty & I & A). exists ty. split; [exact A|]. cbn in I |- *. repeat (destruct I as [I|I]; [injection I as <- _; tauto|]). destruct I.
  - destruct H as (H & NI). destruct d as [| | | |kw f body| |]; cbn [cdnode dnode] in H; try (destruct H as (A & _); eexists; split; [exact A|]; left; reflexivity).
    + destruct H as ((A & _) & _). eexists. split; [exact A|left; reflexivity].
    + destruct H as (_ & A & _). eexists. split; [exact A|left; reflexivity].
    + destruct H as (_ & A & _). eexists. split; [exact A|]. destruct (kw =?s "event"); cbn; auto.
  - destruct H as ((A & _) & _). eexists. split; [exact A|left; reflexivity].
Qed.

Lemma type_of : forall t n ty, any t n -> is_a n ty -> In ty (types t).
Proof. intros t n ty H A. destruct (any_type t n H) as (ty' & A' & I). unfold is_a, fld in *. rewrite A in A'. injection A' as ->. exact I. Qed.

Lemma same_type : forall n ty ty', is_a n ty -> is_a n ty' -> ty = ty'.
Proof. intros n ty ty' A B. unfold is_a, fld in *. congruence. Qed.

Ltac which H := match type of H with In ?ty (types ?t) =>
  destruct t as [[]|[]|[]|]; cbn in H; repeat (destruct H as [H|H]; [try discriminate H|]); try destruct H end.

Lemma is_binop : forall t n, any t n -> is_a n "BinOp" -> exists op a b, t = TE (VBin op a b).
Proof. intros t n H A. pose proof (type_of t n _ H A) as I. which I. eauto. Qed.
Lemma is_compare : forall t n, any t n -> is_a n "Compare" -> exists op a b, t = TE (VCmp op a b).
Proof. intros t n H A. pose proof (type_of t n _ H A) as I. which I. eauto. Qed.
Lemma is_boolop : forall t n, any t n -> is_a n "BoolOp" -> exists w a b l, t = TE (VLogic w a b l).
Proof. intros t n H A. pose proof (type_of t n _ H A) as I. which I. eauto. Qed.
Lemma is_unary : forall t n, any t n -> is_a n "UnaryOp" -> exists a, t = TE (VNot a) \/ t = TE (VInvert a) \/ t = TE (VNeg a).
Proof. intros t n H A. pose proof (type_of t n _ H A) as I. which I; eauto. Qed.
Lemma is_assign : forall t n, any t n -> is_a n "Assign" -> exists a b, t = TS (VsAssign a b).
Proof. intros t n H A. pose proof (type_of t n _ H A) as I. which I. eauto. Qed.
Lemma is_call : forall t n, any t n -> is_a n "Call" -> exists a b c, t = TE (VCall a b c).
Proof. intros t n H A. pose proof (type_of t n _ H A) as I. which I. eauto. Qed.
Lemma is_if : forall t n, any t n -> is_a n "If" -> exists a b c, t = TS (VsIf a b c).
Proof. intros t n H A. pose proof (type_of t n _ H A) as I. which I. eauto. Qed.
Lemma is_for : forall t n, any t n -> is_a n "For" -> exists a b c, t = TS (VsFor a b c).
Proof. intros t n H A. pose proof (type_of t n _ H A) as I. which I. eauto. Qed.
Lemma is_function : forall t n, any t n -> is_a n "FunctionDef" -> exists a b c d e, t = TD (VdFun a b c d e).
Proof. intros t n H A. pose proof (type_of t n _ H A) as I. which I. repeat eexists. Qed.
Lemma is_module : forall t n, any t n -> is_a n "Module" -> exists l, t = TP l.
Proof. intros t n H A. pose proof (type_of t n _ H A) as I. which I. eauto. Qed.
Lemma is_int : forall t n, any t n -> is_a n "Int" -> exists z, t = TE (VInt z).
Proof. intros t n H A. pose proof (type_of t n _ H A) as I. which I. eauto. Qed.

(** The accepted nodes are among the targets. *)
Lemma accepted_target : forall e t n, vy_accepts e t n -> exists ty, is_a n ty /\ In ty targets.
Proof.
  intros e t n H. unfold targets.
  assert (G : forall class, vy_binary class n -> exists ty, is_a n ty /\ In ty targets).
  { intros class ([A|[A|A]] & _); eexists; (split; [exact A|cbn; tauto]). }
  destruct t as [[]|s]; cbn [vy_accepts] in H; try (exact (G _ H)); try (destruct H; fail).
  all: try (eexists; split; [exact H|cbn; tauto]).
  all: try (destruct H as (A & _); eexists; split; [exact A|cbn; tauto]).
  - destruct H as ([A|[A|[A|A]]] & _); eexists; (split; [exact A|cbn; tauto]).
  - destruct H as ([A|[A|A]] & _); eexists; (split; [exact A|cbn; tauto]).
Qed.

Lemma complete : forall t n, any t n -> vy_complete n.
Proof.
  intros t n H. split.
  - intros A. destruct (is_int t n H A) as (z & ->). destruct H as (_ & F & _). exists (jint z). exact F.
  - intros [A|A].
    + destruct (is_binop t n H A) as (op & a & b & ->). destruct H as (_ & _ & (x & Fx & _) & (y & Fy & _)). exists x, y. auto.
    + destruct (is_compare t n H A) as (op & a & b & ->). destruct H as (_ & _ & (x & Fx & _) & (y & Fy & _)). exists x, y. auto.
Qed.

(** ** Fields *)

Lemma becomes : forall k v n n', field_becomes k v n n' -> fld n' k v /\ forall k', k' <> k -> oget n' k' = oget n k'.
Proof. intros k v n n' (o & o' & -> & -> & _ & _ & F & E). split; [exact F|exact E]. Qed.

Lemma two_become : forall ka a kb b n n', two_fields_become ka a kb b n n' ->
  fld n' ka a /\ fld n' kb b /\ forall k', k' <> ka -> k' <> kb -> oget n' k' = oget n k'.
Proof. intros ka a kb b n n' (o & o' & -> & -> & _ & F & G & E). auto. Qed.

Ltac moved := match goal with E : forall k', _ -> oget ?n' k' = oget ?n k' |- _ =>
    unfold is_a, fld, missing in *; rewrite E by discriminate; first [eassumption|idtac] end.
Ltac moved2 := match goal with E : forall k', _ -> _ -> oget ?n' k' = oget ?n k' |- _ =>
    unfold is_a, fld in *; rewrite E by discriminate; eassumption end.
Ltac same_field := match goal with
  | F1 : has_field ?v ?k ?a, F2 : fld ?v ?k ?b |- _ => unfold has_field in F1; unfold fld in F2; rewrite F1 in F2; injection F2 as F2; fold (fld v k a) in F1; subst
  end.

(** ** Lists *)

Lemma nth_ext_error : forall A (l l' : list A), (forall k, nth_error l k = nth_error l' k) -> l = l'.
Proof.
  intros A l. induction l as [|x l IH]; intros [|y l'] E; [reflexivity|specialize (E 0); discriminate E|specialize (E 0); discriminate E|].
  pose proof (E 0) as E0. cbn in E0. injection E0 as ->. f_equal. apply IH. intros k. exact (E (Datatypes.S k)).
Qed.

Lemma slot_cut : forall (A : Type) i (c : A) l l', slot_becomes i c l l' -> forall x, nth_error l i = Some x -> exists u v, l = u ++ x :: v /\ l' = u ++ c :: v.
Proof.
  intros A i c l l' (Hi & Ln & N & E) x Nx. destruct (nth_cut _ _ _ _ Nx) as (u & v & -> & <-).
  exists u, v. split; [reflexivity|]. revert l' Ln N E. clear Nx Hi. induction u as [|y u IH]; intros [|z l'] Ln N E; try discriminate Ln; cbn [length nth_error app] in *.
  - injection N as ->. f_equal. apply nth_ext_error. intros k. exact (E (Datatypes.S k) ltac:(discriminate)).
  - pose proof (E 0 ltac:(discriminate)) as E0. cbn in E0. injection E0 as ->. f_equal. apply IH; [now injection Ln|exact N|].
    intros k Nk. exact (E (Datatypes.S k) ltac:(congruence)).
Qed.

Lemma nth_mid : forall A (a : list A) x b, nth_error (a ++ x :: b) (length a) = Some x.
Proof. intros A a x b. induction a; [reflexivity|exact IHa]. Qed.

Lemma nth_other : forall A (a : list A) x y b k, k <> length a -> nth_error (a ++ x :: b) k = nth_error (a ++ y :: b) k.
Proof.
  intros A a x y b. induction a as [|z a IH]; intros [|k] N; cbn [app nth_error length] in *; try reflexivity; [congruence|]. apply IH. congruence.
Qed.

Lemma exchanged_cut_at : forall A i j (l l' : list A) (R : A -> Prop), exchanged i j l l' ->
  forall x y, nth_error l i = Some x -> nth_error l j = Some y -> R x -> R y ->
  exists a x b y c, l = a ++ x :: b ++ y :: c /\ l' = a ++ y :: b ++ x :: c /\ R x /\ R y.
Proof.
  assert (G : forall A i j (l l' : list A) (R : A -> Prop), i < j -> exchanged i j l l' -> forall x y, nth_error l i = Some x -> nth_error l j = Some y -> R x -> R y ->
    exists a x b y c, l = a ++ x :: b ++ y :: c /\ l' = a ++ y :: b ++ x :: c /\ R x /\ R y).
  { intros A i j l l' R Lt (N & Li & Lj & Ln & Ei & Ej & E) x y Ni Nj Rx Ry.
    destruct (nth_cut _ _ _ _ Ni) as (a & r & -> & <-).
    assert (Nr : nth_error r (j - length a - 1) = Some y).
    { pose proof Nj as Nj'. rewrite nth_error_app2 in Nj' by lia. destruct (j - length a) as [|m] eqn:Em; [lia|]. cbn in Nj'. replace (Datatypes.S m - 1) with m by lia. exact Nj'. }
    destruct (nth_cut _ _ _ _ Nr) as (b & c & -> & Lb). exists a, x, b, y, c. split; [reflexivity|]. split; [|auto]. apply nth_ext_error. intros k.
    assert (Hj : j = length (a ++ y :: b)) by (rewrite app_length; cbn [length]; lia).
    destruct (Nat.eq_dec k (length a)) as [->|Nk]; [rewrite Ei, Nj; symmetry; apply nth_mid|].
    destruct (Nat.eq_dec k j) as [->|Nk2].
    - rewrite Ej, Ni, Hj. change (a ++ y :: b ++ x :: c) with (a ++ (y :: b) ++ x :: c). rewrite app_assoc. symmetry. apply nth_mid.
    - rewrite E by assumption. rewrite (nth_other _ a x y _ k Nk). change (a ++ y :: b ++ y :: c) with (a ++ (y :: b) ++ y :: c). change (a ++ y :: b ++ x :: c) with (a ++ (y :: b) ++ x :: c).
      rewrite !app_assoc. apply nth_other. rewrite app_length. cbn [length]. lia. }
  intros A i j l l' R X x y Ni Nj Rx Ry. pose proof X as (N & Li & Lj & Ln & Ei & Ej & E). destruct (Nat.lt_ge_cases i j) as [Lt|Ge]; [exact (G _ _ _ _ _ R Lt X _ _ Ni Nj Rx Ry)|].
  apply (G A j i l l' R) with (x := y) (y := x); auto; [lia|]. repeat split; auto.
Qed.

Lemma exchanged_cut : forall A i j (l l' : list A), exchanged i j l l' -> exists a x b y c, l = a ++ x :: b ++ y :: c /\ l' = a ++ y :: b ++ x :: c.
Proof.
  intros A i j l l' X. pose proof X as (N & Li & Lj & _). destruct (nth_error l i) as [x|] eqn:Ni; [|apply nth_error_None in Ni; lia].
  destruct (nth_error l j) as [y|] eqn:Nj; [|apply nth_error_None in Nj; lia].
  destruct (exchanged_cut_at A i j l l' (fun _ => True) X x y Ni Nj Logic.I Logic.I) as (a & x0 & b & y0 & c & E1 & E2 & _). exists a, x0, b, y0, c. auto.
Qed.

(** Lists without comments. *)
Lemma no_comments : forall A (R : A -> json -> Prop) l ns, with_comments R l ns -> Forall (fun n => ~ a_comment n) ns -> Forall2 R l ns.
Proof.
  intros A R l. induction l as [|a l IH]; intros ns C F; cbn [with_comments] in C.
  - destruct ns as [|n ns]; [constructor|]. inversion C; inversion F; subst. contradiction.
  - destruct C as (cs & n & more & -> & Cs & Ra & C). destruct cs as [|c cs]; cbn [app] in F.
    + inversion F; subst. cbn [app]. constructor; [exact Ra|]. apply IH; assumption.
    + inversion Cs; inversion F; subst. contradiction.
Qed.

Lemma all_comments : forall A (R : A -> json -> Prop) l ns, Forall2 R l ns -> with_comments R l ns.
Proof. intros A R l ns F. induction F as [|a n l ns H F IH]; cbn [with_comments]; [constructor|]. exists [], n, ns. auto. Qed.

Lemma comment_between : forall A (R : A -> json -> Prop) l1 n1 l2 n2 c, Forall2 R l1 n1 -> Forall2 R l2 n2 -> a_comment c -> with_comments R (l1 ++ l2) (n1 ++ c :: n2).
Proof.
  intros A R l1 n1 l2 n2 c F1 F2 C. induction F1 as [|a n l1 n1 H F IH]; cbn [app].
  - destruct F2 as [|b m l2 n2 H F]; cbn [with_comments]; [constructor; [exact C|constructor]|].
    exists [c], m, n2. repeat split; [constructor; [exact C|constructor]|exact H|]. now apply all_comments.
  - cbn [with_comments]. exists [], n, (n1 ++ c :: n2). auto.
Qed.

(** ** Subtrees *)

Lemma assoc_In : forall A k (o : list (string * A)) v, assoc k o = Some v -> In (k, v) o.
Proof.
  intros A k o v. induction o as [|[k1 v1] o IH]; intros F; cbn [assoc] in F; [discriminate F|]. destruct (k =?s k1) eqn:E; [|right; auto].
  apply String.eqb_eq in E. injection F as ->. left. now subst.
Qed.

Lemma field_path : forall n k v, fld n k v -> exists i, subtree [i] n = Some v.
Proof.
  intros n k v F. unfold fld, oget in F. destruct n as [| | | | |o]; try discriminate F. apply assoc_In in F. apply In_nth_error in F. destruct F as (i & F).
  exists i. cbn [subtree children]. rewrite nth_error_map, F. reflexivity.
Qed.

Lemma uncommented_list : forall n k ns, uncommented n -> fld n k (JArr ns) -> Forall (fun n => ~ a_comment n) ns.
Proof.
  intros n k ns U F. destruct (field_path n k _ F) as (i & S). apply Forall_forall. intros x I. apply In_nth_error in I. destruct I as (j & I).
  apply (U [i; j]). cbn [subtree] in *. destruct (nth_error (children n) i); [|discriminate S]. injection S as ->. cbn [children]. now rewrite I.
Qed.

Lemma small_field : forall n k v, small_ints n -> fld n k v -> is_a v "Int" -> exists z, fld v "value" (jint z) /\ in_i64 z = true.
Proof. intros n k v U F A. destruct (field_path n k _ F) as (i & S). exact (U [i] v S A). Qed.

Lemma jint_not_float : forall z m q, jint z <> JNum (NumF m q).
Proof. intros z m q. unfold jint. repeat match goal with |- context [if ?b then _ else _] => destruct b end; discriminate. Qed.

Lemma jint_inj : forall z z', jint z = jint z' -> z = z'.
Proof. intros z z'. unfold jint. destruct (Z.ltb_spec z 0), (Z.ltb_spec z' 0); intros E; try discriminate E; injection E as E; lia. Qed.

(** ** Operators *)


(** The symbol of an operator of a class. *)
Lemma symbol_of : forall (class : list string) (symbols : list (string * string)) syms,
  forallb (fun ty => match assoc ty symbols with Some s => smem s syms | None => false end) class = true ->
  forall ty, In ty class -> exists s, In (ty, s) symbols /\ In s syms.
Proof.
  intros class symbols syms H ty I. rewrite forallb_forall in H. specialize (H ty I). destruct (assoc ty symbols) as [s|] eqn:E; [|discriminate H].
  exists s. split; [now apply assoc_In|]. clear - H. induction syms as [|y syms IH]; [discriminate H|]. cbn [smem] in H. destruct (s =?s y) eqn:E; [apply String.eqb_eq in E; now left|right; auto].
Qed.

(** Different types, different symbols; one symbol for a type. *)
Lemma symbol_once : forall (symbols : list (string * string)) ty s ty' s', once (map fst symbols) = true -> once (map snd symbols) = true ->
  In (ty, s) symbols -> In (ty', s') symbols -> (ty = ty' <-> s = s').
Proof.
  assert (M : forall k l, In k l -> smem k l = true).
  { intros k l. induction l as [|y l IH]; intros I; [destruct I|]. cbn [smem]. destruct I as [->|I]; [now rewrite String.eqb_refl|]. destruct (k =?s y); auto. }
  intros symbols ty s ty' s'. induction symbols as [|[a b] l IH]; intros O1 O2 I I'; [destruct I|]. cbn [map fst snd once] in O1, O2.
  apply andb_true_iff in O1, O2. destruct O1 as (N1 & O1), O2 as (N2 & O2). apply negb_true_iff in N1, N2.
  destruct I as [I|I], I' as [I'|I'].
  - injection I as -> ->. injection I' as -> ->. tauto.
  - injection I as -> ->. apply (in_map fst) in I' as J1. apply (in_map snd) in I' as J2. cbn [fst snd] in J1, J2. apply M in J1, J2. split; intros ->; congruence.
  - injection I' as -> ->. apply (in_map fst) in I as J1. apply (in_map snd) in I as J2. cbn [fst snd] in J1, J2. apply M in J1, J2. split; intros ->; congruence.
  - auto.
Qed.

Lemma op_type : forall n o ty ty', fld n "op" o -> is_a o ty -> has_op n ty' -> ty = ty'.
Proof. intros n o ty ty' F A (o' & F' & A'). unfold fld in F, F'. rewrite F in F'. injection F' as ->. exact (same_type _ _ _ A A'). Qed.

Lemma binop_edit : forall n n' op a b o old new class syms, any (TE (VBin op a b)) n -> fld n "op" o -> is_a o old -> In old class -> In new class -> new <> old ->
  forallb (fun ty => match assoc ty binary_symbols with Some s => smem s syms | None => false end) class = true ->
  gets "op" (field_becomes "ast_type" (JStr new) o) n n' ->
  exists op', any (TE (VBin op' a b)) n' /\ In op syms /\ In op' syms /\ op' <> op.
Proof.
  intros n n' op a b o old new class syms (A & (ty & I & Ho) & (va & Fa & Na) & (vb & Fb & Nb)) Fo Ao Io In' Nn Hc (o' & Go & Bn).
  pose proof (op_type n o old ty Fo Ao Ho) as <-. destruct (becomes _ _ _ _ Go) as (Ao' & _). destruct (becomes _ _ _ _ Bn) as (Fo' & E).
  destruct (symbol_of class binary_symbols syms Hc new In') as (op' & I' & Is'). destruct (symbol_of class binary_symbols syms Hc old Io) as (op2 & I2 & Is).
  assert (op2 = op) as -> by (apply (symbol_once binary_symbols old op2 old op eq_refl eq_refl I2 I); reflexivity).
  exists op'. split; [|split; [exact Is|split; [exact Is'|]]].
  - cbn [any vnode]. split; [moved|]. split; [exists new; split; [exact I'|exists o'; split; [exact Fo'|exact Ao']]|]. split; [exists va|exists vb]; (split; [moved|assumption]).
  - intros Q. apply Nn. apply (symbol_once binary_symbols new op' old op eq_refl eq_refl I' I). exact Q.
Qed.

Lemma compare_edit : forall n n' op a b o old new class syms, any (TE (VCmp op a b)) n -> fld n "op" o -> is_a o old -> In old class -> In new class -> new <> old ->
  forallb (fun ty => match assoc ty compare_symbols with Some s => smem s syms | None => false end) class = true ->
  gets "op" (field_becomes "ast_type" (JStr new) o) n n' ->
  exists op', any (TE (VCmp op' a b)) n' /\ In op syms /\ In op' syms /\ op' <> op.
Proof.
  intros n n' op a b o old new class syms (A & (ty & I & Ho) & (va & Fa & Na) & (vb & Fb & Nb)) Fo Ao Io In' Nn Hc (o' & Go & Bn).
  pose proof (op_type n o old ty Fo Ao Ho) as <-. destruct (becomes _ _ _ _ Go) as (Ao' & _). destruct (becomes _ _ _ _ Bn) as (Fo' & E).
  destruct (symbol_of class compare_symbols syms Hc new In') as (op' & I' & Is'). destruct (symbol_of class compare_symbols syms Hc old Io) as (op2 & I2 & Is).
  assert (op2 = op) as -> by (apply (symbol_once compare_symbols old op2 old op eq_refl eq_refl I2 I); reflexivity).
  exists op'. split; [|split; [exact Is|split; [exact Is'|]]].
  - cbn [any vnode]. split; [moved|]. split; [exists new; split; [exact I'|exists o'; split; [exact Fo'|exact Ao']]|]. split; [exists va|exists vb]; (split; [moved|assumption]).
  - intros Q. apply Nn. apply (symbol_once compare_symbols new op' old op eq_refl eq_refl I' I). exact Q.
Qed.

(** No operator of this class can be that of such a node. *)
Lemma op_class : forall n (symbols : list (string * string)) op o old class, (exists ty, In (ty, op) symbols /\ has_op n ty) -> fld n "op" o -> is_a o old -> In old class ->
  forallb (fun ty => negb (smem ty (map fst symbols))) class = true -> False.
Proof.
  intros n symbols op o old class (ty & I & H) F A Io Hc. pose proof (op_type n o old ty F A H) as <-. rewrite forallb_forall in Hc. specialize (Hc _ Io).
  apply (in_map fst) in I. cbn [fst] in I. apply negb_true_iff in Hc. clear - I Hc. induction (map fst symbols) as [|y l IH]; [exact I|]. cbn [smem] in Hc.
  destruct I as [->|I]; [now rewrite String.eqb_refl in Hc|]. destruct (old =?s y); [discriminate Hc|auto].
Qed.

Lemma logic_class : forall n w o old class, has_op n (if w : bool then "And" else "Or") -> fld n "op" o -> is_a o old -> In old class ->
  smem "And" class = false -> smem "Or" class = false -> False.
Proof.
  intros n w o old class H F A Io N1 N2. pose proof (op_type n o old _ F A H) as E.
  assert (Q : smem old class = false) by (destruct w; subst; assumption). clear - Io Q. induction class as [|y l IH]; [exact Io|]. cbn [smem] in Q.
  destruct Io as [->|I]; [now rewrite String.eqb_refl in Q|]. destruct (old =?s y); [discriminate Q|auto].
Qed.

(** ** Bodies *)

Lemma filled : forall n F more, vy_filler n F -> F more -> exists f, filler f /\ Forall2 csnode f more.
Proof.
  intros n F more [_|ret id Q _ _ _ D|ret kind l _ K _ _|ret t _ _ _ _] H.
  - destruct H as (v & A & ->). exists [VsWord "pass"]. split; [constructor|]. constructor; [|constructor]. cbn [csnode snode]. exists "Pass". split; [cbn; auto|exact A].
  - destruct H as (v & (A & y & Hy & Fy) & ->).
    assert (G : exists t, default_value t /\ tnode t y).
    { destruct D as [id b _|id z _ Z|id z _ Z|id _].
      - destruct Hy as (A2 & F2). exists (One (VConst (Some b))). split; [exact Logic.I|]. split; [exact A2|exact F2].
      - destruct Hy as (A2 & F2). exists (One (VInt z)). split; [exact Logic.I|]. split; [exact A2|]. split; [exact F2|].
        unfold in_i64. apply andb_true_iff. split; [apply Z.leb_le|apply Z.ltb_lt]; lia.
      - destruct Hy as (A2 & F2). exists (One (VInt z)). split; [exact Logic.I|]. split; [exact A2|]. split; [exact F2|].
        destruct Z as [<-|[<-|[<-|[<-|[]]]]]; reflexivity.
      - destruct Hy as (A2 & F2). eexists (One (VStr _)). split; [exact Logic.I|]. split; [exact A2|exact F2]. }
    destruct G as (t & D2 & N). exists [VsReturn (Some t)]. split; [now constructor|]. constructor; [|constructor].
    cbn [csnode snode onode]. split; [exact A|]. exists y. split; [exact Fy|exact N].
  - destruct H as (v & (A & y & (A2 & ns & Fn & _ & Nn) & Fy) & ->).
    assert (E : elements vnode (map (fun _ => VConst None) ns) ns).
    { clear - Nn. induction Nn as [|x ns (A & F) Nn IH]; cbn [map elements]; [exact Logic.I|]. split; [split; [exact A|exact F]|exact IH]. }
    assert (Ev : Forall (eq (VConst None)) (map (fun _ : json => VConst None) ns)) by (clear; induction ns; constructor; auto).
    destruct K as [<-|[<-|[]]].
    + exists [VsReturn (Some (Many (map (fun _ => VConst None) ns)))]. split; [now constructor|]. constructor; [|constructor].
      cbn [csnode snode onode tnode]. split; [exact A|]. exists y. split; [exact Fy|]. split; [exact A2|]. exists ns. auto.
    + exists [VsReturn (Some (One (VList (map (fun _ => VConst None) ns))))]. split; [now constructor|]. constructor; [|constructor].
      cbn [csnode snode onode tnode]. split; [exact A|]. exists y. split; [exact Fy|]. split; [exact A2|]. exists ns. auto.
  - subst more. exists []. split; constructor.
Qed.

(** A new body. *)
Lemma body_step : forall (R : list vstmt -> list vstmt -> Prop) t0 n n' ns ns',
  (is_a n "FunctionDef" \/ is_a n "For" \/ is_a n "If") -> any t0 n -> uncommented n -> fld n "body" (JArr ns) -> field_becomes "body" (JArr ns') n n' ->
  (forall b, Forall2 csnode b ns -> exists b', R b b' /\ with_comments csnode b' ns') ->
  exists t0', sort t0 t0' /\ any t0' n' /\ body_edit R t0 t0'.
Proof.
  intros R t0 n n' ns ns' [A|[A|A]] H U F B G; destruct (becomes _ _ _ _ B) as (F' & E); pose proof (uncommented_list _ _ _ U F) as NC.
  - destruct (is_function t0 n H A) as (decs & f & args & ret & b & ->). destruct H as (((_ & (dn & Fd & Nd) & Ff & Fa & Nr & Ms) & (nb & Fb & Nb)) & NI). unfold fld in F, Fb. rewrite F in Fb. injection Fb as <-.
    destruct (G b (no_comments _ _ _ _ Nb NC)) as (b' & Rb & Cb). exists (TD (VdFun decs f args ret b')). split; [exact Logic.I|]. split; [|now constructor].
    split; [|exact Logic.I]. split; [|exists ns'; auto]. split; [moved|]. split; [exists dn; split; [moved|assumption]|]. split; [moved|]. split.
    + destruct Fa as (a & Fa & Rest). exists a. split; [moved|exact Rest].
    + split; [|moved]. destruct ret as [r|]; cbn [onode] in *; [|moved]. destruct Nr as (vr & Fr & Nr). exists vr. split; [moved|exact Nr].
  - destruct (is_for t0 n H A) as (x & it & b & ->). destruct H as (_ & (va & Fa & Na) & (vb & Fb & Nb) & (nb & Fc & Nc)). unfold fld in F, Fc. rewrite F in Fc. injection Fc as <-.
    destruct (G b (no_comments _ _ _ _ Nc NC)) as (b' & Rb & Cb). exists (TS (VsFor x it b')). split; [exact Logic.I|]. split; [|now constructor].
    cbn [any csnode]. split; [moved|]. split; [exists va; split; [moved|assumption]|]. split; [exists vb; split; [moved|assumption]|]. exists ns'. auto.
  - destruct (is_if t0 n H A) as (x & b & o & ->). destruct H as (_ & (va & Fa & Na) & (nb & Fc & Nc) & (no & Fo & No) & Z). unfold fld in F, Fc. rewrite F in Fc. injection Fc as <-.
    destruct (G b (no_comments _ _ _ _ Nc NC)) as (b' & Rb & Cb). exists (TS (VsIf x b' o)). split; [exact Logic.I|]. split; [|now constructor].
    cbn [any csnode]. split; [moved|]. split; [exists va; split; [moved|assumption]|]. split; [exists ns'; auto|]. split; [exists no; split; [moved|assumption]|].
    intros Q. specialize (Z Q). moved.
Qed.

Lemma Forall2_len : forall A B (R : A -> B -> Prop) l l', Forall2 R l l' -> length l = length l'.
Proof. intros A B R l l' F. induction F; cbn; congruence. Qed.

Lemma nonempty_rest : forall A (u v : list A) x, 2 <= length (u ++ x :: v) -> u ++ v <> [].
Proof. intros A [|a u] [|b v] x L; cbn in L; try discriminate; lia. Qed.

Lemma csnode_return : forall s n t, csnode (VsReturn s) n -> is_a n t -> t = "Return".
Proof. intros s n t (A & _) B. exact (same_type _ _ _ B A). Qed.

(** ** What an operator makes of a part *)

Theorem outcome_edit : forall e t n P n' t0,
  any t0 n -> vy_accepts e t n -> vy_outcome e n t P -> P n' -> uncommented n -> small_ints n' -> (forall l, t0 = TP l -> 2 <= length l) ->
  exists t0', sort t0 t0' /\ any t0' n' /\ vy_edit t t0 t0'.
Proof.
  intros e t n P n' t0 H Acc O HP U S M.
  destruct O as [g class op old new Hc Fo Ao Inew Nn|z Z| |b|d|l i x Fl L2 Nx|x F Fl HF|l x Fl I|l i j Fl Nij Li Lj|b|c Fc|z Z Fz|z Z Fz|z Z|NZ|a b Fa Fb|l i j x y Fl Nij Nx Ny Rx Ry|x Fx].
  - (* binary operators *)
    assert (Ac : vy_binary class n) by (destruct g; try discriminate Hc; injection Hc as <-; try exact Acc; destruct Acc).
    destruct Ac as (Ty & o2 & t2 & Fo2 & I2 & A2). unfold has_field in Fo, Fo2. rewrite Fo in Fo2. injection Fo2 as <-.
    pose proof (same_type _ _ _ Ao A2) as <-. clear A2.
    destruct Ty as [A|[A|A]].
    + destruct (is_binop t0 n H A) as (sy & a & b & ->).
      destruct g; try discriminate Hc; injection Hc as <-; try (destruct I2; fail).
      * destruct (binop_edit n n' sy a b op old new _ arithmetic_symbols H Fo Ao I2 Inew Nn eq_refl HP) as (sy' & H' & Q1 & Q2 & Q3).
        exists (TE (VBin sy' a b)). split; [exact Logic.I|]. split; [exact H'|]. now constructor.
      * exfalso. destruct H as (_ & H & _). exact (op_class n _ sy op old _ H Fo Ao I2 eq_refl).
      * destruct (binop_edit n n' sy a b op old new _ bitwise_symbols H Fo Ao I2 Inew Nn eq_refl HP) as (sy' & H' & Q1 & Q2 & Q3).
        exists (TE (VBin sy' a b)). split; [exact Logic.I|]. split; [exact H'|]. now constructor.
      * exfalso. destruct H as (_ & H & _). exact (op_class n _ sy op old _ H Fo Ao I2 eq_refl).
    + destruct (is_boolop t0 n H A) as (w & a & b & l & ->).
      destruct g; try discriminate Hc; injection Hc as <-; try (destruct I2; fail).
      * exfalso. destruct H as (_ & H & _). exact (logic_class n w op old _ H Fo Ao I2 eq_refl eq_refl).
      * destruct H as (_ & Ho & va & vb & vl & Fv & Na & Nb & Nl). pose proof (op_type n op old _ Fo Ao Ho) as ->.
        destruct HP as (o' & Go & Bn). destruct (becomes _ _ _ _ Go) as (Ao' & _). destruct (becomes _ _ _ _ Bn) as (Fo' & E).
        exists (TE (VLogic (negb w) a b l)). split; [exact Logic.I|]. split; [|constructor]. cbn [any vnode]. split; [moved|].
        split; [|exists va, vb, vl; split; [moved|auto]]. exists o'. split; [exact Fo'|].
        assert (new = (if negb w then "And" else "Or")) as -> by (destruct w; cbn in Inew |- *; destruct Inew as [<-|[<-|[]]]; congruence). exact Ao'.
      * exfalso. destruct H as (_ & H & _). exact (logic_class n w op old _ H Fo Ao I2 eq_refl eq_refl).
      * exfalso. destruct H as (_ & H & _). exact (logic_class n w op old _ H Fo Ao I2 eq_refl eq_refl).
    + destruct (is_compare t0 n H A) as (sy & a & b & ->).
      destruct g; try discriminate Hc; injection Hc as <-; try (destruct I2; fail).
      * exfalso. destruct H as (_ & H & _). exact (op_class n _ sy op old _ H Fo Ao I2 eq_refl).
      * exfalso. destruct H as (_ & H & _). exact (op_class n _ sy op old _ H Fo Ao I2 eq_refl).
      * exfalso. destruct H as (_ & H & _). exact (op_class n _ sy op old _ H Fo Ao I2 eq_refl).
      * destruct (compare_edit n n' sy a b op old new _ comparison_symbols H Fo Ao I2 Inew Nn eq_refl HP) as (sy' & H' & Q1 & Q2 & Q3).
        exists (TE (VCmp sy' a b)). split; [exact Logic.I|]. split; [exact H'|]. now constructor.
  - (* assignments *)
    destruct (is_assign t0 n H Acc) as (x & y & ->). destruct H as (A & (va & Fa & Na) & _). destruct HP as (v & (Av & Fv) & B). destruct (becomes _ _ _ _ B) as (F' & E).
    destruct (small_field _ _ _ S F' Av) as (z' & Fz & Iz). unfold has_field in Fv. unfold fld in Fz. rewrite Fv in Fz. injection Fz as Fz. apply jint_inj in Fz. subst z'.
    exists (TS (VsAssign x (One (VInt z)))). split; [exact Logic.I|]. split; [|constructor]. cbn [any csnode snode tnode]. split; [moved|]. split; [exists va; split; [moved|assumption]|].
    exists v. split; [exact F'|]. split; [exact Av|]. split; [exact Fv|exact Iz].
  - destruct (is_assign t0 n H Acc) as (x & y & ->). destruct HP as (v & (Av & m & q & Fv) & B). destruct (becomes _ _ _ _ B) as (F' & E).
    destruct (small_field _ _ _ S F' Av) as (z' & Fz & Iz). unfold has_field in Fv. unfold fld in Fz. rewrite Fv in Fz. injection Fz as Fz. symmetry in Fz. now apply jint_not_float in Fz.
  - destruct (is_assign t0 n H Acc) as (x & y & ->). destruct H as (A & (va & Fa & Na) & _). destruct HP as (v & (Av & Fv) & B). destruct (becomes _ _ _ _ B) as (F' & E).
    exists (TS (VsAssign x (One (VConst (Some b))))). split; [exact Logic.I|]. split; [|constructor]. cbn [any csnode snode tnode]. split; [moved|]. split; [exists va; split; [moved|assumption]|].
    exists v. split; [exact F'|]. split; [exact Av|exact Fv].
  - destruct (is_assign t0 n H Acc) as (x & y & ->). destruct H as (A & (va & Fa & Na) & _). destruct HP as (v & (Av & Fv) & B). destruct (becomes _ _ _ _ B) as (F' & E).
    eexists (TS (VsAssign x (One (VVerbatim false _)))). split; [exact Logic.I|]. split; [|constructor]. cbn [any csnode snode tnode]. split; [moved|]. split; [exists va; split; [moved|assumption]|].
    exists v. split; [exact F'|]. split; [exact Av|exact Fv].
  - (* a statement out *)
    destruct HP as (c & l' & (Ac & _) & Sl & B). destruct (slot_cut _ i c l l' Sl x Nx) as (u & v & -> & ->).
    destruct Acc as (Ty & _).
    assert (Q : (is_a n "FunctionDef" \/ is_a n "For" \/ is_a n "If") \/ is_a n "Module") by tauto. destruct Q as [Q|Q].
    + destruct (body_step statement_deleted t0 n n' _ _ Q H U Fl B) as (t0' & So & H' & Bd).
      { intros b Fb. destruct (Forall2_mid_inv _ _ _ _ _ _ _ Fb) as (bu & s & bv & -> & F1 & F2 & F3). exists (bu ++ bv). split.
        - constructor. apply nonempty_rest with (x := s). apply Forall2_len in Fb. lia.
        - now apply comment_between. }
      exists t0'. split; [exact So|]. split; [exact H'|]. now constructor.
    + destruct (is_module t0 n H Q) as (ds & ->). destruct H as ((_ & Ms & (nb & Fb & Nb)) & NI). unfold has_field in Fl. unfold fld in Fb. rewrite Fl in Fb. injection Fb as <-.
      destruct (becomes _ _ _ _ B) as (F' & E). pose proof (no_comments _ _ _ _ Nb (uncommented_list _ _ _ U Fl)) as Fb.
      destruct (Forall2_mid_inv _ _ _ _ _ _ _ Fb) as (bu & s & bv & -> & F1 & F2 & F3). exists (TP (bu ++ bv)). split; [exact Logic.I|]. split.
      * split.
        -- split; [moved|]. split; [moved|]. exists (u ++ c :: v). split; [exact F'|]. now apply comment_between.
        -- apply Forall_app in NI. destruct NI as (N1 & N2). inversion N2; subst. apply Forall_app. auto.
      * apply ve_delete_def. apply nonempty_rest with (x := s). apply Forall2_len in Fb. lia.
  - (* the only statement *)
    destruct HP as (c & more & (Ac & _) & Hm & B). destruct Acc as (Ty & _).
    assert (Q : (is_a n "FunctionDef" \/ is_a n "For" \/ is_a n "If") \/ is_a n "Module") by tauto. destruct Q as [Q|Q].
    + destruct (filled n F more HF Hm) as (f & Ff & Nf).
      destruct (body_step statement_deleted t0 n n' _ _ Q H U Fl B) as (t0' & So & H' & Bd).
      { intros b Fb. inversion Fb as [|s ? bl ? Hs Hl]; subst. inversion Hl; subst. exists f. split; [now constructor|].
        apply (comment_between _ csnode [] [] f more); [constructor|exact Nf|exact Ac]. }
      exists t0'. split; [exact So|]. split; [exact H'|]. now constructor.
    + exfalso. destruct (is_module t0 n H Q) as (ds & ->). specialize (M ds eq_refl). destruct H as ((_ & Ms & (nb & Fb & Nb)) & NI). unfold has_field in Fl. unfold fld in Fb. rewrite Fl in Fb. injection Fb as <-.
      pose proof (no_comments _ _ _ _ Nb (uncommented_list _ _ _ U Fl)) as Fb. apply Forall2_len in Fb. cbn in Fb. lia.
  - (* calls *)
    subst n'. destruct Acc as (A & _). destruct (is_call t0 n H A) as (f & args & kws & ->). destruct H as (_ & _ & (ns & Fn & Nn) & _).
    unfold has_field in Fl. unfold fld in Fn. rewrite Fl in Fn. injection Fn as <-. apply elements_Forall2 in Nn. apply in_split in I. destruct I as (u & v & ->).
    destruct (Forall2_mid_inv _ _ _ _ _ _ _ Nn) as (eu & e0 & ev & -> & F1 & F2 & F3). exists (TE e0). split; [exact Logic.I|]. split; [exact F2|]. constructor. apply in_or_app. right. now left.
  - destruct Acc as (A & _). destruct (is_call t0 n H A) as (f & args & kws & ->). destruct H as (_ & (vf & Ff & Nf) & (ns & Fn & Nn) & (kn & Fk & Nk)).
    unfold has_field in Fl. unfold fld in Fn. rewrite Fl in Fn. injection Fn as <-. apply elements_Forall2 in Nn. destruct HP as (l' & Ex & B). destruct (becomes _ _ _ _ B) as (F' & E).
    destruct (exchanged_cut _ _ _ _ _ Ex) as (a & x & b & y & c & -> & ->).
    destruct (Forall2_mid_inv _ _ _ _ _ _ _ Nn) as (ea & ex & er & -> & F1 & F2 & F3). destruct (Forall2_mid_inv _ _ _ _ _ _ _ F3) as (eb & ey & ec & -> & F4 & F5 & F6).
    exists (TE (VCall f (ea ++ ey :: eb ++ ex :: ec) kws)). split; [exact Logic.I|]. split.
    + cbn [any vnode]. split; [moved|]. split; [exists vf; split; [moved|assumption]|]. split.
      * exists (a ++ y :: b ++ x :: c). split; [exact F'|]. apply elements_of. apply Forall2_mid; [assumption|assumption|]. apply Forall2_mid; assumption.
      * exists kn. split; [moved|exact Nk].
    + constructor. exists ea, ex, eb, ey, ec. auto.
  - (* if *)
    destruct Acc as (A & _). destruct (is_if t0 n H A) as (x & bd & o & ->). destruct H as (_ & (va & Fa & Na) & (nb & Fb & Nb) & (no & Fo & No) & Z).
    destruct HP as (v & (Av & Fv) & B). destruct (becomes _ _ _ _ B) as (F' & E). exists (TS (VsIf (VConst (Some b)) bd o)). split; [exact Logic.I|]. split; [|constructor].
    cbn [any csnode]. split; [moved|]. split; [exists v; split; [exact F'|split; [exact Av|exact Fv]]|]. split; [exists nb; split; [moved|assumption]|]. split; [exists no; split; [moved|assumption]|].
    intros Q. specialize (Z Q). moved.
  - destruct Acc as (A & _). destruct (is_if t0 n H A) as (x & bd & o & ->). destruct H as (_ & (va & Fa & Na) & (nb & Fb & Nb) & (no & Fo & No) & Z).
    unfold has_field in Fc. unfold fld in Fa. rewrite Fc in Fa. injection Fa as <-.
    destruct HP as (v & (Av & Fv & Ov) & B). destruct (becomes _ _ _ _ B) as (F' & E). exists (TS (VsIf (VNot x) bd o)). split; [exact Logic.I|]. split; [|constructor].
    cbn [any csnode]. split; [moved|]. split; [exists v; split; [exact F'|]|].
    + cbn [vnode]. split; [exact Av|]. split; [exact Ov|]. exists c. split; [exact Fv|exact Na].
    + split; [exists nb; split; [moved|assumption]|]. split; [exists no; split; [moved|assumption]|]. intros Q. specialize (Z Q). moved.
  - (* integers *)
    destruct (is_int t0 n H Acc) as (z0 & ->). destruct H as (A & F0 & I0). unfold has_field in Fz. unfold fld in F0. rewrite Fz in F0. injection F0 as F0. apply jint_inj in F0. subst z0.
    destruct HP as (v & <- & B). destruct (becomes _ _ _ _ B) as (F' & E). exists (TE (VInt (z + 1))). split; [exact Logic.I|]. split; [|constructor].
    cbn [any vnode]. split; [moved|]. split; [exact F'|]. unfold in_i64. apply andb_true_iff. split; [apply Z.leb_le|apply Z.ltb_lt]; lia.
  - destruct (is_int t0 n H Acc) as (z0 & ->). destruct H as (A & F0 & I0). unfold has_field in Fz. unfold fld in F0. rewrite Fz in F0. injection F0 as F0. apply jint_inj in F0. subst z0.
    destruct HP as (v & <- & B). destruct (becomes _ _ _ _ B) as (F' & E). exists (TE (VInt (z - 1))). split; [exact Logic.I|]. split; [|constructor].
    cbn [any vnode]. split; [moved|]. split; [exact F'|]. unfold in_i64. apply andb_true_iff. split; [apply Z.leb_le|apply Z.ltb_lt]; lia.
  - destruct (is_int t0 n H Acc) as (z0 & ->). destruct H as (A & F0 & I0).
    destruct HP as (v & <- & B). destruct (becomes _ _ _ _ B) as (F' & E). exists (TE (VInt z)). split; [exact Logic.I|]. split; [|constructor].
    cbn [any vnode]. split; [moved|]. split; [exact F'|]. unfold in_i64. apply andb_true_iff. split; [apply Z.leb_le|apply Z.ltb_lt]; lia.
  - exfalso. destruct (is_int t0 n H Acc) as (z0 & ->). destruct H as (A & F0 & I0). exact (NZ z0 F0).
  - (* operands exchanged *)
    destruct Acc as (Ty & o & ot & Fo & Io & Ao). destruct (two_become _ _ _ _ _ _ HP) as (Fa' & Fb' & E).
    destruct Ty as [A|[A|A]].
    + destruct (is_binop t0 n H A) as (sy & x & y & ->). destruct H as (_ & (ty & I & Ho) & (va & Fx & Nx) & (vb & Fy & Ny)).
      unfold has_field in Fa, Fb. unfold fld in Fx, Fy. rewrite Fa in Fx. rewrite Fb in Fy. injection Fx as <-. injection Fy as <-.
      exists (TE (VBin sy y x)). split; [exact Logic.I|]. split.
      * cbn [any vnode]. split; [moved2|]. split.
        -- exists ty. split; [exact I|]. destruct Ho as (o2 & Fo2 & Ao2). exists o2. split; [moved2|exact Ao2].
        -- split; [exists b|exists a]; auto.
      * constructor. pose proof (op_type n o ot ty Fo Ao Ho) as ->. clear - I Io. cbn in I, Io |- *.
        repeat (destruct I as [I|I]; [injection I as <- <-; repeat (destruct Io as [Io|Io]; [try discriminate Io; tauto|]); destruct Io|]). destruct I.
    + exfalso. destruct (is_boolop t0 n H A) as (w & x & y & l & ->). destruct H as (_ & H & _). exact (logic_class n w o ot _ H Fo Ao Io eq_refl eq_refl).
    + destruct (is_compare t0 n H A) as (sy & x & y & ->). destruct H as (_ & (ty & I & Ho) & (va & Fx & Nx) & (vb & Fy & Ny)).
      unfold has_field in Fa, Fb. unfold fld in Fx, Fy. rewrite Fa in Fx. rewrite Fb in Fy. injection Fx as <-. injection Fy as <-.
      exists (TE (VCmp sy y x)). split; [exact Logic.I|]. split.
      * cbn [any vnode]. split; [moved2|]. split.
        -- exists ty. split; [exact I|]. destruct Ho as (o2 & Fo2 & Ao2). exists o2. split; [moved2|exact Ao2].
        -- split; [exists b|exists a]; auto.
      * constructor. pose proof (op_type n o ot ty Fo Ao Ho) as ->. clear - I Io. cbn in I, Io |- *.
        repeat (destruct I as [I|I]; [injection I as <- <-; repeat (destruct Io as [Io|Io]; [try discriminate Io; tauto|]); destruct Io|]). destruct I.
  - (* lines exchanged *)
    destruct Acc as (Ty & _). destruct HP as (l' & Ex & B).
    assert (N2 : ~ is_vy "Return" y /\ ~ is_vy "Return" x) by auto.
    assert (G : exists a x0 b y0 c, l = a ++ x0 :: b ++ y0 :: c /\ l' = a ++ y0 :: b ++ x0 :: c /\ ~ is_vy "Return" x0 /\ ~ is_vy "Return" y0) by exact (exchanged_cut_at _ _ _ _ _ (fun v => ~ is_vy "Return" v) Ex _ _ Nx Ny Rx Ry).
    destruct G as (a & x0 & b & y0 & c & -> & -> & R1 & R2).
    destruct (body_step lines_swapped t0 n n' _ _ Ty H U Fl B) as (t0' & So & H' & Bd).
    { intros bd Fb. destruct (Forall2_mid_inv _ _ _ _ _ _ _ Fb) as (ea & ex & er & -> & F1 & F2 & F3). destruct (Forall2_mid_inv _ _ _ _ _ _ _ F3) as (eb & ey & ec & -> & F4 & F5 & F6).
      exists (ea ++ ey :: eb ++ ex :: ec). split.
      - exists ea, ex, eb, ey, ec. split; [reflexivity|]. split; [reflexivity|]. split; intros r ->; [apply R1|apply R2]; [exact (proj1 F2)|exact (proj1 F5)].
      - apply all_comments. apply Forall2_mid; [assumption|assumption|]. apply Forall2_mid; assumption. }
    exists t0'. split; [exact So|]. split; [exact H'|]. now constructor.
  - (* unary *)
    subst n'. destruct (is_unary t0 n H Acc) as (a & [->|[->| ->]]); destruct H as (_ & _ & (va & Fa & Na)); unfold has_field in Fx; unfold fld in Fa; rewrite Fx in Fa; injection Fa as <-;
      exists (TE a); (split; [exact Logic.I|]; split; [exact Na|constructor]).
Qed.
