(** The requests of a Solidity program with comments in it. *)
From Coq Require Import String Ascii List NArith ZArith Bool Lia.
From Verif Require Import Base Json JsonFacts Printer SolPrinter SpecPrinter SpecLiteral SpecVyText SpecSolText SpecSolEdit SpecSolNote
  TextFacts LayoutFacts EmitFacts SolEmit PrintFacts LitFacts PathFacts IdealFacts VyText VyTextStmt SolText SolTextStmt OpFacts SolNoteLex SolNoteExec.
Import ListNotations.
Open Scope string_scope.
Open Scope list_scope.

Notation D := sol_default.

Section Notes.
Variable h : nat.

(** ** Putting requests together *)

Lemma commented_refl : forall b e l, commented h b e l l.
Proof. intros b e l. revert b. induction l as [|x l IH]; intros b; constructor. apply IH. Qed.

Lemma commented_more : forall b e l l', commented h b e l l' -> b = false -> commented h true e l l'.
Proof.
  intros b e l l' H. induction H as [b e|b e x l l' H IH|e s l l' S H IH|e s l l' S H IH|b e s l l' S E H IH|b e s l l' S E H IH]; intros Q; try discriminate Q.
  - constructor.
  - constructor. subst b. destruct x; try exact H; exact (IH eq_refl).
  - now apply cm_last.
  - now apply cm_last_gap.
Qed.

Lemma ends_app : forall e l a, ends true a = true -> ends e l = true -> ends e (a ++ l) = true.
Proof.
  intros e l. induction a as [|x a IH]; intros A L; [exact L|]. destruct x; cbn [ends app] in *; try discriminate A; try reflexivity.
  now apply IH.
Qed.
Lemma ends_false_app : forall e l a, ends false a = true -> ends e (a ++ l) = true.
Proof.
  intros e l. induction a as [|x a IH]; intros A; [discriminate A|]. destruct x; cbn [ends app] in *; try discriminate A; try reflexivity.
  now apply IH.
Qed.

Lemma commented_any : forall b e l l', commented h false e l l' -> commented h b e l l'.
Proof. intros [|] e l l' H; [exact (commented_more _ _ _ _ H eq_refl)|exact H]. Qed.

Lemma after_ends : forall e a b, ends e a = true -> e = false -> after false a = after b a.
Proof.
  intros e a. induction a as [|x a IH]; intros b E ->; [discriminate E|]. cbn [after fold_left]. destruct x; cbn [ends starts] in *; try discriminate E.
  - reflexivity.
  - exact (IH b E eq_refl).
Qed.

Lemma commented_app : forall b e1 a a', commented h b e1 a a' -> forall e l l',
  (e1 = true -> ends e l = true /\ commented h false e l l') -> commented h (after b a) e l l' -> commented h b e (a ++ l) (a' ++ l').
Proof.
  intros b e1 a a' H. induction H as [b e1|b e1 x a a' H IH|e1 s a a' S H IH|e1 s a a' S H IH|b e1 s a a' S E H IH|b e1 s a a' S E H IH]; intros e l l' L M.
  - exact M.
  - cbn [app]. constructor. exact (IH e l l' L M).
  - cbn [app]. rewrite <- app_assoc. cbn [app]. apply cm_line; [exact S|]. exact (IH e l l' L M).
  - cbn [app]. rewrite <- app_assoc. cbn [app]. apply cm_gap; [exact S|]. exact (IH e l l' L M).
  - cbn [app]. rewrite <- app_assoc. apply cm_last; [exact S| |].
    + destruct e1; [apply ends_app; [exact E|apply L; reflexivity]|now apply ends_false_app].
    + apply (IH e l l' L). clear IH H. destruct e1.
      * destruct (L eq_refl) as (_ & C). now apply commented_any.
      * now rewrite (after_ends false a b E eq_refl).
  - cbn [app]. rewrite <- app_assoc. apply cm_last_gap; [exact S| |].
    + destruct e1; [apply ends_app; [exact E|apply L; reflexivity]|now apply ends_false_app].
    + apply (IH e l l' L). clear IH H. destruct e1.
      * destruct (L eq_refl) as (_ & C). now apply commented_any.
      * now rewrite (after_ends false a b E eq_refl).
Qed.

(** Comments inside only. *)
Definition inner (a a' : list cmd) : Prop := commented h false false a a'.

Lemma inner_refl : forall a, inner a a.
Proof. intros a. apply commented_refl. Qed.
Lemma inner_app : forall a a' l l', inner a a' -> inner l l' -> inner (a ++ l) (a' ++ l').
Proof. intros a a' l l' A L. apply (commented_app _ _ _ _ A); [discriminate|]. now apply commented_any. Qed.
Lemma inner_cons : forall x l l', inner l l' -> inner (x :: l) (x :: l').
Proof. intros x l l' L. exact (inner_app [x] [x] l l' (inner_refl _) L). Qed.

(** ** Lists *)

Inductive mixed : bool -> list json -> list json -> Prop :=
| mx_nil : forall b, mixed b [] []
| mx_comment : forall c l l', fair_comment h c -> mixed true l l' -> mixed true l (c :: l')
| mx_cons : forall b v v' l l', oget v' "nodeType" = oget v "nodeType" -> inner (sol_emit D v) (sol_emit D v') -> mixed b l l' -> mixed b (v :: l) (v' :: l').

(** Elements that ask for the same, without comments. *)
Lemma each_inner : forall f g b l l', mixed b l l' -> b = false ->
  (forall v v', oget v' "nodeType" = oget v "nodeType" -> inner (sol_emit D v) (sol_emit D v') -> inner (f v) (f v')) ->
  inner (each f (fun _ => g) l) (each f (fun _ => g) l').
Proof.
  intros f g b l l' M B F. induction M as [b|c l l' Hc M IH|b v v' l l' T V M IH]; [apply inner_refl|discriminate B|].
  cbn [each]. apply inner_app; [exact (F _ _ T V)|]. apply inner_app; [|exact (IH B)]. subst b. inversion M; subst; apply inner_refl.
Qed.

Lemma comment_type : forall c, fair_comment h c -> oget c "nodeType" = Some (JStr "Comment").
Proof.
  intros c (A & _). unfold is_comment in A. destruct (oget c "nodeType") as [[]|]; try discriminate A. apply String.eqb_eq in A. now subst.
Qed.

Lemma mixed_none : forall b l l', mixed b l l' -> l' = [] -> l = [].
Proof. intros b l l' M E. destruct M; [reflexivity|discriminate E|discriminate E]. Qed.

(** Lines: each element on lines of its own, an empty line between them or not. *)
Lemma each_lines : forall f g, g = [Newline] \/ g = [Newline; Newline] ->
  (forall c, fair_comment h c -> f c = sol_emit D c) ->
  (forall v v', oget v' "nodeType" = oget v "nodeType" -> inner (sol_emit D v) (sol_emit D v') -> inner (f v) (f v')) ->
  forall b l l', mixed b l l' -> l <> [] ->
  commented h true true (each (fun x => Indent :: f x) (fun _ => g) l) (each (fun x => Indent :: f x) (fun _ => g) l').
Proof.
  intros f g G Fc F b l l' M N.
  assert (Tail : forall l', mixed b [] l' -> commented h false true [] (flat_map (fun c => g ++ Indent :: f c) l')).
  { clear - G Fc. intros l' M. remember (@nil json) as l0 eqn:E. induction M as [b|c l l' Hc M IH|b v v' l l' T V M IH]; [constructor| |discriminate E].
    cbn [flat_map]. rewrite (Fc c Hc). assert (Nt : note h (sol_emit D c)) by (exists c; split; [exact Hc|reflexivity]). specialize (IH E). subst l.
    destruct G as [-> | ->]; cbn [app]; [apply cm_last|apply cm_last_gap]; try reflexivity; assumption. }
  assert (Join : forall x l, each (fun x => Indent :: f x) (fun _ => g) (x :: l) = (Indent :: f x) ++ flat_map (fun c => g ++ Indent :: f c) l).
  { clear. intros x l. revert x. induction l as [|y l IH]; intros x; [cbn; now rewrite app_nil_r|].
    change (each (fun x => Indent :: f x) (fun _ => g) (x :: y :: l)) with ((Indent :: f x) ++ g ++ each (fun x => Indent :: f x) (fun _ => g) (y :: l)).
    rewrite IH. cbn [flat_map]. rewrite <- !app_assoc. reflexivity. }
  induction M as [b|c l l' Hc M IH|b v v' l l' T V M IH]; [congruence| |].
  - specialize (IH N Tail). destruct l' as [|y l']; [exfalso; apply N; exact (mixed_none _ _ _ M eq_refl)|].
    change (each (fun x => Indent :: f x) (fun _ => g) (c :: y :: l')) with ((Indent :: f c) ++ g ++ each (fun x => Indent :: f x) (fun _ => g) (y :: l')).
    rewrite (Fc c Hc). assert (Nt : note h (sol_emit D c)) by (exists c; split; [exact Hc|reflexivity]).
    destruct G as [-> | ->]; cbn [app]; [apply cm_line|apply cm_gap]; assumption.
  - rewrite (Join v l), (Join v' l'). apply (commented_app true false); [apply cm_cons; exact (F _ _ T V)|discriminate|].
    apply commented_any. destruct l as [|w l]; [exact (Tail l' M)|]. destruct l' as [|w' l']; [pose proof (mixed_none _ _ _ M eq_refl); congruence|].
    assert (K : commented h true true (each (fun x => Indent :: f x) (fun _ => g) (w :: l)) (each (fun x => Indent :: f x) (fun _ => g) (w' :: l')))
      by (apply IH; [discriminate|exact Tail]).
    rewrite (Join w l), (Join w' l') in K. cbn [flat_map]. rewrite <- !app_assoc.
    destruct G as [-> | ->]; cbn [app]; constructor; [exact K|]. constructor. exact K.
Qed.

(** ** Nodes *)

Definition alike (v v' : json) : Prop := oget v' "nodeType" = oget v "nodeType" /\ inner (sol_emit D v) (sol_emit D v').

Definition field_alike (ty k : string) (o o' : option json) : Prop :=
  o' = o \/
  (In (ty, k) body_fields /\ exists v v', o = Some v /\ o' = Some v' /\ alike v v') \/
  (exists b l l', In (ty, k, b) list_fields /\ o = Some (JArr l) /\ o' = Some (JArr l') /\ l <> [] /\ mixed b l l').

Lemma other_key : forall ty k o o', field_alike ty k o o' -> existsb (fun p => (fst p =?s ty) && (snd p =?s k)) (body_fields ++ map fst list_fields) = false -> o' = o.
Proof.
  intros ty k o o' [E|[(I & _)|(b & l & l' & I & _)]] N; [exact E| |]; exfalso.
  - assert (X : existsb (fun p => (fst p =?s ty) && (snd p =?s k)) (body_fields ++ map fst list_fields) = true); [|congruence].
    apply existsb_exists. exists (ty, k). split; [apply in_or_app; now left|]. cbn [fst snd]. now rewrite !String.eqb_refl.
  - assert (X : existsb (fun p => (fst p =?s ty) && (snd p =?s k)) (body_fields ++ map fst list_fields) = true); [|congruence].
    apply existsb_exists. exists (ty, k). split; [apply in_or_app; right; exact (in_map fst _ _ I)|]. cbn [fst snd]. now rewrite !String.eqb_refl.
Qed.

Lemma body_key : forall ty k o o', field_alike ty k o o' -> existsb (fun p => (fst p =?s ty) && (snd p =?s k)) (map fst list_fields) = false ->
  (o = None /\ o' = None) \/ exists v v', o = Some v /\ o' = Some v' /\ alike v v'.
Proof.
  intros ty k o o' [E|[(I & v & v' & E1 & E2 & A)|(b & l & l' & I & _)]] N.
  - subst o'. destruct o as [v|]; [right|now left]. exists v, v. repeat split. apply inner_refl.
  - right. exists v, v'. auto.
  - exfalso. assert (X : existsb (fun p => (fst p =?s ty) && (snd p =?s k)) (map fst list_fields) = true); [|congruence].
    apply existsb_exists. exists (ty, k). split; [exact (in_map fst _ _ I)|]. cbn [fst snd]. now rewrite !String.eqb_refl.
Qed.

Definition is_b (b : bool) (p : string * string * bool) : bool := Bool.eqb (snd p) b.
Lemma list_key : forall ty k b o o', field_alike ty k o o' -> existsb (fun p => (fst p =?s ty) && (snd p =?s k)) body_fields = false ->
  existsb (fun p => (fst (fst p) =?s ty) && (snd (fst p) =?s k) && Bool.eqb (snd p) (negb b)) list_fields = false ->
  o' = o \/ exists l l', o = Some (JArr l) /\ o' = Some (JArr l') /\ l <> [] /\ mixed b l l'.
Proof.
  intros ty k b o o' [E|[(I & _)|(b0 & l & l' & I & E1 & E2 & N0 & M)]] N1 N2; [now left| |].
  - exfalso. assert (X : existsb (fun p => (fst p =?s ty) && (snd p =?s k)) body_fields = true); [|congruence].
    apply existsb_exists. exists (ty, k). split; [exact I|]. cbn [fst snd]. now rewrite !String.eqb_refl.
  - right. exists l, l'. repeat split; try assumption. destruct (Bool.bool_dec b0 b) as [<-|Nb]; [exact M|exfalso].
    assert (X : existsb (fun p => (fst (fst p) =?s ty) && (snd (fst p) =?s k) && Bool.eqb (snd p) (negb b)) list_fields = true); [|congruence].
    apply existsb_exists. exists (ty, k, b0). split; [exact I|]. cbn [fst snd]. rewrite !String.eqb_refl. destruct b0, b; try reflexivity; congruence.
Qed.

(** One field of two objects. *)
Definition fields_alike (ty : string) (n n' : json) : Prop := forall k, field_alike ty k (oget n k) (oget n' k).

Lemma same_key : forall ty n n' k, fields_alike ty n n' -> existsb (fun p => (fst p =?s ty) && (snd p =?s k)) (body_fields ++ map fst list_fields) = false ->
  oget n' k = oget n k.
Proof. intros ty n n' k F N. exact (other_key _ _ _ _ (F k) N). Qed.

Lemma body_part : forall ty n n' k f, fields_alike ty n n' -> existsb (fun p => (fst p =?s ty) && (snd p =?s k)) (map fst list_fields) = false ->
  (forall v v', alike v v' -> inner (f v) (f v')) -> inner (opt (oget n k) f) (opt (oget n' k) f).
Proof.
  intros ty n n' k f F N G. destruct (body_key _ _ _ _ (F k) N) as [(-> & ->)|(v & v' & -> & -> & A)]; [apply inner_refl|]. exact (G v v' A).
Qed.

Lemma is_block_alike : forall v v' y y' z z', alike v v' -> inner y y' -> inner z z' -> inner (is_block v y z) (is_block v' y' z').
Proof.
  intros v v' y y' z z' (T & _) Y Z. unfold is_block, get_str. rewrite !kget_plain by reflexivity. rewrite T.
  destruct (oget v "nodeType") as [[]|]; try apply inner_refl. cbn [opt as_str]. destruct (_ =?s _); assumption.
Qed.

Ltac reach := unfold s_documentation, s_name, s_returns, tok_of, s_statements, get_array, get_str, get_bool, sflag, arr_of, sub; unfold get_bool; rewrite ?kget_plain by reflexivity.
Ltac same F := repeat match type of F with fields_alike ?ty ?n ?n' =>
  match goal with |- context [oget n' ?k] => rewrite (same_key ty n n' k F eq_refl) end end.
Ltac parts := repeat first [apply inner_refl | apply inner_app | apply inner_cons].

Lemma if_alike : forall n n', fields_alike "IfStatement" n n' -> inner (s_IfStatement D sol_emit n) (s_IfStatement D sol_emit n').
Proof.
  intros n n' F. unfold s_IfStatement. reach. same F. parts; apply (body_part _ _ _ _ _ F eq_refl); intros v v' A; apply is_block_alike; try exact A; parts; exact (proj2 A).
Qed.
Lemma while_alike : forall n n', fields_alike "WhileStatement" n n' -> inner (s_WhileStatement D sol_emit n) (s_WhileStatement D sol_emit n').
Proof. intros n n' F. unfold s_WhileStatement. reach. same F. parts. apply (body_part _ _ _ _ _ F eq_refl). intros v v' A. parts. exact (proj2 A). Qed.
Lemma do_alike : forall n n', fields_alike "DoWhileStatement" n n' -> inner (s_DoWhileStatement D sol_emit n) (s_DoWhileStatement D sol_emit n').
Proof. intros n n' F. unfold s_DoWhileStatement. reach. same F. parts. apply (body_part _ _ _ _ _ F eq_refl). intros v v' A. parts. exact (proj2 A). Qed.
Lemma for_alike : forall n n', fields_alike "ForStatement" n n' -> inner (s_ForStatement D sol_emit n) (s_ForStatement D sol_emit n').
Proof.
  intros n n' F. unfold s_ForStatement. reach. same F. parts. apply (body_part _ _ _ _ _ F eq_refl). intros v v' A. apply is_block_alike; try exact A; parts; exact (proj2 A).
Qed.
Lemma clause_alike : forall n n', fields_alike "TryCatchClause" n n' -> inner (s_TryCatchClause D sol_emit n) (s_TryCatchClause D sol_emit n').
Proof. intros n n' F. unfold s_TryCatchClause. reach. same F. parts. apply (body_part _ _ _ _ _ F eq_refl). intros v v' A. exact (proj2 A). Qed.
Lemma function_alike : forall n n', fields_alike "FunctionDefinition" n n' -> inner (s_FunctionDefinition D sol_emit n) (s_FunctionDefinition D sol_emit n').
Proof. intros n n' F. unfold s_FunctionDefinition. reach. same F. parts. apply (body_part _ _ _ _ _ F eq_refl). intros v v' A. parts. exact (proj2 A). Qed.
Lemma modifier_alike : forall n n', fields_alike "ModifierDefinition" n n' -> inner (s_ModifierDefinition D sol_emit n) (s_ModifierDefinition D sol_emit n').
Proof. intros n n' F. unfold s_ModifierDefinition. reach. same F. parts. apply (body_part _ _ _ _ _ F eq_refl). intros v v' A. parts. exact (proj2 A). Qed.

Lemma try_alike : forall n n', fields_alike "TryStatement" n n' -> inner (s_TryStatement D sol_emit n) (s_TryStatement D sol_emit n').
Proof.
  intros n n' F. unfold s_TryStatement. reach. same F. parts. destruct (list_key "TryStatement" "clauses" false _ _ (F _) eq_refl eq_refl) as [->|(l & l' & -> & -> & _ & M)]; [apply inner_refl|].
  cbn [as_array opt]. apply (each_inner _ _ false); [exact M|reflexivity|]. intros v v' _ V. parts. exact V.
Qed.
Lemma unit_alike : forall n n', fields_alike "SourceUnit" n n' -> inner (s_SourceUnit D sol_emit n) (s_SourceUnit D sol_emit n').
Proof.
  intros n n' F. unfold s_SourceUnit. reach. same F. parts. destruct (list_key "SourceUnit" "nodes" false _ _ (F _) eq_refl eq_refl) as [->|(l & l' & -> & -> & _ & M)]; [apply inner_refl|].
  cbn [as_array opt]. parts. apply (each_inner _ _ false); [exact M|reflexivity|]. intros v v' _ V. parts. exact V.
Qed.

Lemma fair_plain : forall c, fair_comment h c -> opt (get_str c "nodeType") (fun ty => when (ty =?s "VariableDeclaration") [Tok ";"]) = [].
Proof. intros c Hc. unfold get_str. rewrite kget_plain by reflexivity. rewrite (comment_type c Hc). reflexivity. Qed.

(** Lines between an opening and a closing brace. *)
Lemma braced : forall a b x x', ends false b = true -> after false a = true -> commented h true true x x' -> inner (a ++ x ++ b) (a ++ x' ++ b).
Proof.
  intros a b x x' E A X. apply (commented_app false false); [apply commented_refl|discriminate|]. rewrite A.
  apply (commented_app true true); [exact X| |apply commented_refl]. intros _. split; [exact E|apply commented_refl].
Qed.

Lemma contract_alike : forall n n', fields_alike "ContractDefinition" n n' -> inner (s_ContractDefinition D sol_emit n) (s_ContractDefinition D sol_emit n').
Proof.
  intros n n' F. unfold s_ContractDefinition. reach. same F. parts. destruct (list_key "ContractDefinition" "nodes" true _ _ (F _) eq_refl eq_refl) as [->|(l & l' & -> & -> & N & M)]; [apply inner_refl|].
  cbn [as_array opt]. replace (not_empty l') with (not_empty l) by (destruct l; [congruence|]; destruct l'; [pose proof (mixed_none _ _ _ M eq_refl); congruence|reflexivity]).
  replace (not_empty l) with true by (destruct l; [congruence|reflexivity]). cbn [when]. apply braced; [reflexivity|reflexivity|].
  apply (each_lines (fun x => sol_emit D x ++ opt (match kget x "nodeType" with Some v => as_str v | None => None end) (fun ty => when (ty =?s "VariableDeclaration") [Tok ";"])) _ (or_intror eq_refl)) with (b := true); try assumption.
  - intros c Hc. pose proof (fair_plain c Hc) as P. unfold get_str in P. rewrite P. apply app_nil_r.
  - intros v v' T V. rewrite !kget_plain by reflexivity. rewrite T. parts. exact V.
Qed.

Lemma statements_written : forall l, l <> [] -> forall n, oget n "statements" = Some (JArr l) ->
  s_statements (sol_emit D) false n = [Inc; Newline] ++ each (fun x => Indent :: sol_emit D x) (fun _ => [Newline]) l ++ [Dec; Newline; Indent].
Proof.
  intros l N n E. unfold s_statements, arr_of. rewrite E. cbn [as_array opt]. destruct l as [|x [|y l]]; [congruence| |reflexivity].
  cbn [each app]. now rewrite app_nil_r.
Qed.

Lemma block_alike : forall ty n n', ty = "Block" \/ ty = "UncheckedBlock" -> fields_alike ty n n' -> inner (s_Block D sol_emit n) (s_Block D sol_emit n').
Proof.
  intros ty n n' T F. unfold s_Block. apply inner_app; [|apply inner_app; [apply inner_refl|apply inner_app; [|apply inner_refl]]].
  - reach. destruct T as [-> | ->]; same F; apply inner_refl.
  - change (sc_single D) with false.
    assert (L : oget n' "statements" = oget n "statements" \/ exists l l', oget n "statements" = Some (JArr l) /\ oget n' "statements" = Some (JArr l') /\ l <> [] /\ mixed true l l')
      by (destruct T as [-> | ->]; exact (list_key _ "statements" true _ _ (F _) eq_refl eq_refl)).
    destruct L as [E|(l & l' & E & E' & N & M)].
    + unfold s_statements, arr_of. rewrite E. apply inner_refl.
    + rewrite (statements_written l N n E), (statements_written l') with (n := n'); [|intros Q; apply N; exact (mixed_none _ _ _ M Q)|exact E'].
      apply braced; [reflexivity|reflexivity|]. apply (each_lines (sol_emit D) _ (or_introl eq_refl)) with (b := true); try assumption; [reflexivity|]. now intros.
Qed.

Definition holders : list string := map fst body_fields ++ map (fun p => fst (fst p)) list_fields.

Lemma not_holder : forall ty k o o', smem ty holders = false -> field_alike ty k o o' -> o' = o.
Proof.
  intros ty k o o' N [E|[(I & _)|(b & l & l' & I & _)]]; [exact E| |]; exfalso.
  - apply (in_map fst) in I. assert (X : smem ty holders = true); [|congruence]. apply (proj2 (smem_In' ty holders)). apply in_or_app. now left.
  - apply (in_map (fun p => fst (fst p))) in I. assert (X : smem ty holders = true); [|congruence]. apply (proj2 (smem_In' ty holders)). apply in_or_app. now right.
Qed.

Lemma object_alike : forall n n' ty, is_n n ty -> is_n n' ty -> smem ty holders = true -> fields_alike ty n n' -> inner (sol_emit D n) (sol_emit D n').
Proof.
  intros n n' ty T T' H F. pose proof (proj1 (smem_In' ty holders) H) as I.
  cbn in I. repeat match type of I with _ \/ _ => destruct I as [<-|I] end; try (exact (False_ind _ I)).
  all: match type of T with is_n _ ?t => rewrite (sol_at D n t _ T eq_refl), (sol_at D n' t _ T' eq_refl) end.
  all: first [exact (if_alike _ _ F)|exact (while_alike _ _ F)|exact (do_alike _ _ F)|exact (for_alike _ _ F)|exact (clause_alike _ _ F)|exact (function_alike _ _ F)
    |exact (modifier_alike _ _ F)|exact (try_alike _ _ F)|exact (unit_alike _ _ F)|exact (contract_alike _ _ F)|exact (block_alike _ _ _ (or_introl eq_refl) F)|exact (block_alike _ _ _ (or_intror eq_refl) F)].
Qed.

(** ** Trees *)

Scheme noted_mut := Induction for noted Sort Prop
  with noted_fields_mut := Induction for noted_fields Sort Prop
  with noted_list_mut := Induction for noted_list Sort Prop.
Combined Scheme noted_all from noted_mut, noted_fields_mut, noted_list_mut.

Lemma noted_alike_all :
  (forall v v', noted h v v' -> alike v v') /\
  (forall ty o o', noted_fields h ty o o' -> (forall k, field_alike ty k (assoc k o) (assoc k o')) /\ (smem ty holders = false -> o' = o)) /\
  (forall b l l', noted_list h b l l' -> mixed b l l').
Proof.
  apply noted_all.
  - intros v. split; [reflexivity|apply inner_refl].
  - intros o o' _ (F & Same). destruct (smem (node_type o) holders) eqn:H; [|rewrite (Same eq_refl); split; [reflexivity|apply inner_refl]].
    assert (T : is_n (JObj o) (node_type o)).
    { unfold is_n, fld. cbn [oget]. unfold node_type in *. destruct (assoc "nodeType" o) as [[]|]; try reflexivity; discriminate H. }
    assert (E : oget (JObj o') "nodeType" = oget (JObj o) "nodeType").
    { cbn [oget]. apply (other_key (node_type o) "nodeType"); [exact (F _)|]. clear. unfold body_fields, list_fields. cbn [map app existsb fst snd]. now rewrite !andb_false_r. }
    split; [exact E|]. apply (object_alike _ _ (node_type o)); try assumption. unfold is_n, fld in *. now rewrite E.
  - intros ty. split; [intros k; now left|reflexivity].
  - intros ty (k0 & v) o o' _ (F & Same). split; [|intros H; now rewrite (Same H)]. intros k. cbn [assoc]. destruct (k =?s k0); [now left|exact (F k)].
  - intros ty k0 v v' o o' I _ A _ (F & Same). split.
    + intros k. cbn [assoc]. destruct (k =?s k0) eqn:Q; [|exact (F k)]. apply String.eqb_eq in Q. subst k0. right. left. split; [exact I|]. exists v, v'. auto.
    + intros H. exfalso. assert (X : field_alike ty k0 (Some JNull) (Some (JArr []))) by (right; left; split; [exact I|exists JNull, (JArr []); repeat split; apply inner_refl]).
      pose proof (not_holder _ _ _ _ H X). discriminate.
  - intros ty k0 b l l' o o' I N _ M _ (F & Same). split.
    + intros k. cbn [assoc]. destruct (k =?s k0) eqn:Q; [|exact (F k)]. apply String.eqb_eq in Q. subst k0. right. right. exists b, l, l'. auto.
    + intros H. exfalso. assert (X : smem ty holders = true); [|congruence]. apply (in_map (fun p => fst (fst p))) in I. apply (proj2 (smem_In' ty holders)). apply in_or_app. now right.
  - intros b. constructor.
  - intros c l l' Hc _ M. now constructor.
  - intros b v v' l l' _ (T & V) _ M. now constructor.
Qed.

(** The requests of the tree with comments are those of the tree, and comments. *)
Lemma noted_commented : forall v v', noted h v v' -> commented h false false (sol_emit D v) (sol_emit D v').
Proof. intros v v' H. exact (proj2 (proj1 noted_alike_all v v' H)). Qed.

End Notes.
