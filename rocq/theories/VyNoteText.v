(** The text of a Vyper program with comments in it. *)
From Coq Require Import String Ascii List NArith ZArith Bool Lia.
From Verif Require Import Base Json JsonFacts VyMutators Printer VyPrinter SpecPrinter SpecLiteral SpecVyText SpecVyRead SpecVyEdit
  TextFacts LayoutFacts EmitFacts VyEmit PrintFacts LitFacts PathFacts IdealFacts VyText VyTextStmt VyReadLex VyReadNote VyNoteExec.
Import ListNotations.
Open Scope string_scope.
Open Scope list_scope.

(** ** Putting requests together *)

Lemma commented_refl : forall b e l, commented b e l l.
Proof. intros b e l. revert b. induction l as [|x l IH]; intros b; constructor. apply IH. Qed.

Lemma commented_more : forall b e l l', commented b e l l' -> b = false -> commented true e l l'.
Proof.
  intros b e l l' H. induction H as [b e|b e x l l' H IH|e s l l' S H IH|e s l l' S H IH|b e s l l' S E H IH]; intros Q; try discriminate Q.
  - constructor.
  - constructor. subst b. destruct x; try exact H; exact (IH eq_refl).
  - now constructor.
Qed.

Lemma ends_app : forall e l a, ends true a = true -> ends e l = true -> ends e (a ++ l) = true.
Proof.
  intros e l. induction a as [|x a IH]; intros A L; [exact L|]. destruct x; cbn [ends app] in *; try discriminate A; try reflexivity.
  now apply IH.
Qed.
Lemma ends_false_app : forall e l a, ends false a = true -> ends e (a ++ l) = true.
Proof.
  intros e l. induction a as [|x a IH]; intros A; [discriminate A|]. destruct x; cbn [ends app] in *; try discriminate A; try reflexivity.
  now apply IH.
Qed.

Lemma after_false : forall a, after false a = true -> forall b, after b a = true.
Proof.
  induction a as [|x a IH]; intros H b; [discriminate H|]. cbn [after fold_left] in *. destruct x; cbn [starts] in *; try exact H.
  - exact (IH H b).
  - exact (IH H b).
Qed.

Lemma commented_any : forall b e l l', commented false e l l' -> commented b e l l'.
Proof. intros [|] e l l' H; [exact (commented_more _ _ _ _ H eq_refl)|exact H]. Qed.

Lemma commented_app : forall b e1 a a', commented b e1 a a' -> forall e l l',
  (e1 = true -> ends e l = true /\ commented false e l l') -> commented (after b a) e l l' -> commented b e (a ++ l) (a' ++ l').
Proof.
  intros b e1 a a' H. induction H as [b e1|b e1 x a a' H IH|e1 s a a' S H IH|e1 s a a' S H IH|b e1 s a a' S E H IH]; intros e l l' L M.
  - exact M.
  - cbn [app]. constructor. exact (IH e l l' L M).
  - cbn [app]. rewrite <- app_assoc. cbn [app]. constructor; [exact S|]. exact (IH e l l' L M).
  - rewrite <- app_assoc. cbn [app]. constructor; [exact S|]. exact (IH e l l' L M).
  - cbn [app]. rewrite <- app_assoc. apply cm_last; [exact S| |].
    + destruct e1; [apply ends_app; [exact E|apply L; reflexivity]|now apply ends_false_app].
    + apply (IH e l l' L). clear IH H. destruct e1.
      * destruct (L eq_refl) as (_ & C). now apply commented_any.
      * replace (after false a) with (after b a); [exact M|]. clear - E. revert b.
        induction a as [|x a IH]; intros b; [discriminate E|]. cbn [after fold_left]. destruct x; cbn [ends starts] in *; try discriminate E.
        -- reflexivity.
        -- exact (IH E b).
Qed.

(** Unchanged requests first. *)
Lemma commented_keep : forall a b e l l', commented (after b a) e l l' -> commented b e (a ++ l) (a ++ l').
Proof. intros a b e l l' H. apply (commented_app b false a a (commented_refl _ _ _)); [discriminate|exact H]. Qed.

(** ** Blocks *)

Lemma comments_notes : forall c cs, Forall a_comment cs -> Forall (fun n => note (vy_emit c n)) cs.
Proof. intros c cs F. induction F; constructor; [eexists _, _; split; [eassumption|reflexivity]|assumption]. Qed.

(** The requests of the statements, one after the other. *)
Definition block_of (xs : list (list cmd)) : list cmd :=
  (fix go xs := match xs with [] => [] | x :: xs => (Indent :: x) ++ match xs with [] => [] | _ => [Newline] end ++ go xs end) xs.

Lemma block_of_cons : forall x y xs, block_of (x :: y :: xs) = Indent :: x ++ Newline :: block_of (y :: xs).
Proof. reflexivity. Qed.

Lemma indented_block : forall f ns, v_indented f ns = block_of (map f ns).
Proof.
  intros f ns. unfold v_indented. induction ns as [|n ns IH]; [reflexivity|]. cbn [each map block_of]. destruct ns as [|m ns]; [reflexivity|].
  cbn [map]. rewrite IH. reflexivity.
Qed.

Lemma notes_before : forall c cs xs e l, Forall a_comment cs -> xs <> [] -> commented true e l (block_of xs) ->
  commented true e l (block_of (map (vy_emit c) cs ++ xs)).
Proof.
  intros c cs xs e l F N H. induction F as [|n cs Hn F IH]; [exact H|]. cbn [map app].
  destruct (map (vy_emit c) cs ++ xs) as [|y ys] eqn:E; [apply app_eq_nil in E; destruct E; congruence|].
  rewrite block_of_cons. apply cm_line; [eexists _, _; split; [exact Hn|reflexivity]|exact IH].
Qed.

Lemma notes_behind : forall c cs x x0, Forall a_comment cs -> commented false true x0 x ->
  commented true true (Indent :: x0) (block_of (x :: map (vy_emit c) cs)).
Proof.
  intros c cs x x0 F H.
  assert (G : block_of (x :: map (vy_emit c) cs) = Indent :: x ++ flat_map (fun n => Newline :: Indent :: vy_emit c n) cs).
  { clear F H. revert x. induction cs as [|n cs IH]; intros x; [cbn; now rewrite app_nil_r|].
    cbn [map]. rewrite block_of_cons, IH. reflexivity. }
  rewrite G. constructor. cbn [starts]. rewrite <- (app_nil_r x0).
  assert (K : commented false true [] (flat_map (fun n => Newline :: Indent :: vy_emit c n) cs)).
  { clear G H. induction F as [|n cs Hn F IH]; [constructor|]. cbn [flat_map app]. apply cm_last; [eexists _, _; split; [exact Hn|reflexivity]|reflexivity|exact IH]. }
  apply (commented_app _ _ _ _ H); [intros _; split; [reflexivity|exact K]|now apply commented_any].
Qed.

Lemma block_commented : forall A (R : A -> json -> Prop) (Q : A -> list cmd -> Prop) c l ns, with_comments R l ns -> l <> [] ->
  (forall a n, In a l -> R a n -> exists x, Q a x /\ commented false true x (vy_emit c n)) ->
  exists xs, Forall2 Q l xs /\ commented true true (block_of xs) (v_indented (vy_emit c) ns).
Proof.
  intros A R Q c l. induction l as [|a l IH]; intros ns W N H; [congruence|].
  destruct W as (cs & n & more & -> & F & Ra & W).
  destruct (H a n (or_introl eq_refl) Ra) as (x & Qx & Cx). rewrite indented_block, map_app. cbn [map].
  destruct l as [|b l].
  - exists [x]. split; [repeat constructor; exact Qx|]. apply notes_before; [exact F|discriminate|].
    change (block_of [x]) with (Indent :: x ++ []). rewrite app_nil_r. apply notes_behind; [exact W|exact Cx].
  - destruct (IH more W) as (xs & Qs & Cs); [discriminate|intros; apply H; [right|]; assumption|].
    exists (x :: xs). split; [constructor; assumption|]. apply notes_before; [exact F|discriminate|].
    rewrite indented_block in Cs. inversion Qs as [|? y ? ys Qy Qs']; subst.
    destruct (map (vy_emit c) more) as [|z zs] eqn:Z.
    { exfalso. destruct W as (cs2 & n2 & more2 & -> & _). rewrite map_app in Z. apply app_eq_nil in Z. destruct Z. discriminate. }
    rewrite !block_of_cons. constructor. cbn [starts].
    assert (K : commented false true (Newline :: block_of (y :: ys)) (Newline :: block_of (z :: zs))) by (constructor; exact Cs).
    apply (commented_app _ _ _ _ Cx); [intros _; split; [reflexivity|exact K]|now apply commented_any].
Qed.

(** Each statement with the end of its line. *)
Definition rows_of (xs : list (list cmd)) : list cmd := flat_map (fun x => Indent :: x ++ [Newline]) xs.

Lemma rows_commented : forall A (R : A -> json -> Prop) (Q : A -> list cmd -> Prop) c l ns, with_comments R l ns ->
  (forall a n, In a l -> R a n -> exists x, Q a x /\ commented false true x (vy_emit c n)) ->
  exists xs, Forall2 Q l xs /\ commented true false (rows_of xs) (flat_map (fun v => Indent :: vy_emit c v ++ [Newline]) ns).
Proof.
  assert (G : forall c cs l l', Forall a_comment cs -> commented true false l l' ->
    commented true false l (flat_map (fun v => Indent :: vy_emit c v ++ [Newline]) cs ++ l')).
  { intros c cs l l' F H. induction F as [|n cs Hn F IH]; [exact H|]. cbn [flat_map app]. rewrite <- !app_assoc. cbn [app].
    apply cm_line; [eexists _, _; split; [exact Hn|reflexivity]|exact IH]. }
  intros A R Q c l. induction l as [|a l IH]; intros ns W H.
  - exists []. split; [constructor|]. rewrite <- app_nil_r. apply G; [exact W|constructor].
  - destruct W as (cs & n & more & -> & F & Ra & W).
    destruct (H a n (or_introl eq_refl) Ra) as (x & Qx & Cx). destruct (IH more W) as (xs & Qs & Cs); [intros; apply H; [right|]; assumption|].
    exists (x :: xs). split; [constructor; assumption|]. rewrite flat_map_app. apply G; [exact F|]. cbn [rows_of flat_map app].
    constructor. cbn [starts]. rewrite <- !app_assoc. cbn [app].
    assert (K : commented false false (Newline :: rows_of xs) (Newline :: flat_map (fun v => Indent :: vy_emit c v ++ [Newline]) more)) by (constructor; exact Cs).
    apply (commented_app _ _ _ _ Cx); [intros _; split; [reflexivity|exact K]|now apply commented_any].
Qed.

(** ** What they say *)

Lemma says_block : forall h xs l, Forall2 (fun s x => says h x (fun tab ind => stext tab ind s)) l xs ->
  says h (block_of xs) (fun tab ind => sjoin newline (map (line_text tab ind) l)).
Proof.
  intros h xs l F. induction F as [|s x l xs H F IH]; [exact says_nil|].
  destruct F as [|s2 x2 l xs H2 F].
  - change (block_of [x]) with (Indent :: x ++ []). rewrite app_nil_r. exact (says_cons_indent H).
  - rewrite block_of_cons. eapply says_ext; [exact (says_cons_indent (says_app H (says_cons_newline IH)))|].
    intros. cbn [map].
    change (sjoin newline (line_text tab ind s :: line_text tab ind s2 :: map (line_text tab ind) l))
      with (String.append (line_text tab ind s) (String.append newline (sjoin newline (line_text tab ind s2 :: map (line_text tab ind) l)))).
    cbv beta. generalize (sjoin newline (line_text tab ind s2 :: map (line_text tab ind) l)). intros z. unfold line_text. text_eq.
Qed.

Lemma says_rows : forall h xs l, Forall2 (fun s x => says h x (fun tab ind => stext tab ind s)) l xs ->
  says h (rows_of xs) (fun tab ind => cat (map (full_line tab ind) l)).
Proof.
  intros h xs l F. induction F as [|s x l xs H F IH]; [exact says_nil|]. cbn [rows_of flat_map].
  eapply says_ext; [exact (says_cons_indent (says_app (says_app H (says_cons_newline says_nil)) IH))|].
  intros. cbn [map]. change (cat (full_line tab ind s :: map (full_line tab ind) l)) with (String.append (full_line tab ind s) (cat (map (full_line tab ind) l))).
  unfold full_line at 2. cbv beta. generalize (cat (map (full_line tab ind) l)). intros z. text_eq.
Qed.

(** ** Statements *)

(** The requests of the node are those of the statement, with comments. *)
Definition notes (h : nat) (c : vctx) (s : vstmt) (n : json) : Prop :=
  exists x, says h x (fun tab ind => stext tab ind s) /\ commented false true x (vy_emit c n).

Definition stmt_notes (s : vstmt) : Prop :=
  forall h c n, vc_tuple_parens c = false -> csnode s n -> easy_stmt h s -> spelled_stmt s = true -> notes h c s n.

Lemma same_notes : forall s h c n, vc_tuple_parens c = false -> snode s n -> easy_stmt h s -> notes h c s n.
Proof. intros s h c n P H Z. exists (vy_emit c n). split; [exact (all_state s h c n P H Z)|apply commented_refl]. Qed.

Lemma inner_notes : forall h c l ns, vc_tuple_parens c = false -> Forall stmt_notes l -> Forall (easy_stmt h) l -> forallb spelled_stmt l = true ->
  with_comments csnode l ns -> l <> [] ->
  exists x, says (S h) (Inc :: x ++ [Dec]) (fun tab ind => sjoin newline (map (line_text tab (ind + 1)) l)) /\
    commented true true x (v_indented (vy_emit c) ns).
Proof.
  intros h c l ns P IH Z Sp W N.
  destruct (block_commented _ csnode (fun s x => says h x (fun tab ind => stext tab ind s)) c l ns W N) as (xs & F & C).
  { intros s n I R. rewrite Forall_forall in IH, Z. rewrite forallb_forall in Sp. exact (IH s I h c n P R (Z s I) (Sp s I)). }
  exists (block_of xs). split; [exact (says_inside (says_block h xs l F))|exact C].
Qed.

Lemma inner_rows : forall h c l ns, vc_tuple_parens c = false -> Forall stmt_notes l -> Forall (easy_stmt h) l -> forallb spelled_stmt l = true ->
  with_comments csnode l ns ->
  exists x, says (S h) (Inc :: x ++ [Dec]) (fun tab ind => cat (map (full_line tab (ind + 1)) l)) /\
    commented true false x (flat_map (fun v => Indent :: vy_emit c v ++ [Newline]) ns).
Proof.
  intros h c l ns P IH Z Sp W.
  destruct (rows_commented _ csnode (fun s x => says h x (fun tab ind => stext tab ind s)) c l ns W) as (xs & F & C).
  { intros s n I R. rewrite Forall_forall in IH, Z. rewrite forallb_forall in Sp. exact (IH s I h c n P R (Z s I) (Sp s I)). }
  exists (rows_of xs). split; [exact (says_inside (says_rows h xs l F))|exact C].
Qed.

Lemma all_notes : forall s, stmt_notes s.
Proof.
  induction s as [e|t e|t op e|t ty e|e|e m|e|e|w|e body orelse IHb IHo|t it body IHb] using vstmt_ind';
    intros h c n P H Z Sp; try (apply same_notes; assumption).
  - cbn [csnode] in H. cbn [easy_stmt] in Z. cbn [spelled_stmt] in Sp. rewrite !andb_true_iff in Sp. destruct Sp as (((_ & Nb) & Sb) & So).
    destruct H as (A & (x & Fx & Nx) & (bs & Fb & Wb) & (os & Fo & Wo) & Eo). destruct Z as (Ze & Zb & Zo).
    destruct h as [|h]; [destruct Zb|]. cbn [inside] in Zb, Zo. apply block_easy in Zb. apply block_easy in Zo.
    destruct (inner_notes h c body bs P IHb Zb Sb Wb) as (x1 & S1 & C1); [intros ->; discriminate Nb|].
    assert (E : vy_emit c n = [Tok "if"; Space] ++ vy_emit c x ++ [Tok ":"; Newline; Inc] ++ v_indented (vy_emit c) bs ++ [Dec] ++
      when (not_empty os) ([Newline; Indent; Tok "else:"; Newline; Inc] ++ v_indented (vy_emit c) os ++ [Dec])).
    { rewrite (vy_at c n _ _ A eq_refl). unfold v_If, v_indented_body.
      rewrite (sub_fld _ _ _ _ Fx), (arr_of_fld _ _ _ Fb), (arr_of_fld _ _ _ Fo). reflexivity. }
    unfold notes. rewrite E. clear E.
    assert (T : exists x2, says (S h) x2 (fun tab ind => match orelse with [] => "" | _ =>
        cat [newline; margin tab ind; "else:"; newline; sjoin newline (map (line_text tab (ind + 1)) orelse)] end) /\
      commented false true x2 (when (not_empty os) ([Newline; Indent; Tok "else:"; Newline; Inc] ++ v_indented (vy_emit c) os ++ [Dec])) /\
      ends true (Dec :: x2) = true).
    { destruct orelse as [|s orelse].
      - specialize (Eo eq_refl). unfold fld in Fo, Eo. rewrite Fo in Eo. injection Eo as ->. exists []. split; [exact says_nil|]. split; [constructor|reflexivity].
      - destruct (inner_notes h c (s :: orelse) os P IHo Zo So Wo) as (x2 & S2 & C2); [discriminate|].
        exists ([Newline; Indent; Tok "else:"; Newline; Inc] ++ x2 ++ [Dec]). split; [|split; [|reflexivity]].
        + eapply says_ext; [exact (says_cons_newline (says_cons_indent (says_cons_tok "else:" eq_refl (says_cons_newline S2))))|].
          intros. cbv beta. generalize (sjoin newline (map (line_text tab (ind + 1)) (s :: orelse))). intros z. text_eq.
        + destruct os as [|o os]; [destruct Wo as (cs & ? & ? & Wo & _); destruct cs; discriminate Wo|]. cbn [not_empty when].
          apply commented_keep. apply (commented_app _ _ _ _ C2); [intros _; split; [reflexivity|apply commented_refl]|apply commented_refl]. }
    destruct T as (x2 & S3 & C3 & E3).
    exists ([Tok "if"; Space] ++ vy_emit c x ++ [Tok ":"; Newline; Inc] ++ x1 ++ [Dec] ++ x2). split.
    + eapply says_ext.
      { tk; sp; apply says_app; [exact (all_speak e (S h) c x Nx Ze)|].
        change ([Tok ":"; Newline; Inc] ++ x1 ++ [Dec] ++ x2) with (Tok ":" :: Newline :: (Inc :: x1 ++ [Dec] ++ x2)).
        tk; nl. rewrite app_assoc, app_comm_cons. apply says_app; [exact S1|exact S3]. }
      intros. cbn [stext].
      change (fun s => String.append (margin tab (ind + 1)) (stext tab (ind + 1) s)) with (line_text tab (ind + 1)).
      cbv beta. generalize (sjoin newline (map (line_text tab (ind + 1)) body)). intros z. text_eq.
    + rewrite !(app_assoc _ (vy_emit c x)), !(app_assoc _ [Tok ":"; Newline; Inc]). apply commented_keep.
      replace (after false _) with true by (unfold after; rewrite fold_left_app; reflexivity).
      assert (K : commented false true ([Dec] ++ x2) ([Dec] ++ when (not_empty os) ([Newline; Indent; Tok "else:"; Newline; Inc] ++ v_indented (vy_emit c) os ++ [Dec])))
        by (cbn [app]; constructor; exact C3).
      apply (commented_app _ _ _ _ C1); [intros _; split; [exact E3|exact K]|now apply commented_any].
  - cbn [csnode] in H. cbn [easy_stmt] in Z. cbn [spelled_stmt] in Sp. rewrite !andb_true_iff in Sp. destruct Sp as (_ & Sb).
    destruct H as (A & (x & Fx & Nx) & (y & Fy & Ny) & (bs & Fb & Wb)). destruct Z as (Zt & Zi & Zb).
    destruct h as [|h]; [destruct Zb|]. cbn [inside] in Zb. apply block_easy in Zb.
    destruct (inner_rows h c body bs P IHb Zb Sb Wb) as (x1 & S1 & C1).
    assert (E : vy_emit c n = [Tok "for"; Space] ++ vy_emit c x ++ [Space; Tok "in"; Space] ++ vy_emit c y ++ [Tok ":"; Newline; Inc] ++
      flat_map (fun v => Indent :: vy_emit c v ++ [Newline]) bs ++ [Dec]).
    { rewrite (vy_at c n _ _ A eq_refl). unfold v_For, v_body_nodes.
      rewrite (sub_fld _ _ _ _ Fx), (sub_fld _ _ _ _ Fy), (arr_of_fld _ _ _ Fb). reflexivity. }
    unfold notes. rewrite E. clear E.
    exists ([Tok "for"; Space] ++ vy_emit c x ++ [Space; Tok "in"; Space] ++ vy_emit c y ++ [Tok ":"; Newline; Inc] ++ x1 ++ [Dec]). split.
    + eapply says_ext.
      { tk; sp; apply says_app; [exact (all_speak t (S h) c x Nx Zt)|].
        sp; tk; sp; apply says_app; [exact (all_speak it (S h) c y Ny Zi)|].
        exact (says_cons_tok ":" eq_refl (says_cons_newline S1)). }
      intros. cbn [stext].
      change (fun s => cat [margin tab (ind + 1); stext tab (ind + 1) s; newline]) with (full_line tab (ind + 1)).
      cbv beta. generalize (cat (map (full_line tab (ind + 1)) body)). intros z. text_eq.
    + rewrite !(app_assoc _ (vy_emit c x)), !(app_assoc _ [Space; Tok "in"; Space]), !(app_assoc _ (vy_emit c y)), !(app_assoc _ [Tok ":"; Newline; Inc]). apply commented_keep.
      replace (after false _) with true by (unfold after; rewrite fold_left_app; reflexivity).
      apply (commented_app _ _ _ _ C1); [discriminate|apply commented_refl].
Qed.

(** ** Definitions and programs *)

Lemma fun_notes : forall h c decs f args ret body n, quiet c -> cdnode (VdFun decs f args ret body) n ->
  easy_def h (VdFun decs f args ret body) -> spelled_block body = true ->
  exists x, says0 h x (fun tab => dtext tab (VdFun decs f args ret body)) /\ commented true true x (vy_emit c n).
Proof.
  intros h c decs f args ret body n (P & Q) (H & ns & F & N) (Of & Zd & Za & Zr & Zb) Sp.
  destruct h as [|h]; [destruct Zb|]. cbn [inside] in Zb. unfold spelled_block in Sp. apply andb_true_iff in Sp. destruct Sp as (Nb & Sb).
  destruct (inner_notes h c body ns P (proj2 (Forall_forall _ _) (fun s _ => all_notes s)) Zb Sb N) as (x1 & S1 & C1); [intros ->; discriminate Nb|].
  rewrite (fun_parts c decs f args ret n H). unfold fun_body. rewrite Q, (arr_of_fld _ _ _ F). cbn [opt].
  exists (fun_decs c n ++ fun_head c n ++ [Newline; Inc] ++ x1 ++ [Dec]). split.
  - eapply says0_ext.
    { apply says0_app; [exact (decs_say (S h) c decs f args ret n H Zd)|].
      apply says0_app; [exact (says_top (head_says (S h) c decs f args ret n H Of Za Zr))|].
      exact (says_top (says_cons_newline S1)). }
    intros. cbn [dtext]. change (0 + 1)%N with 1%N.
    change (block_text tab 1 body) with (sjoin newline (map (line_text tab 1) body)).
    cbv beta. generalize (sjoin newline (map (line_text tab 1) body)). intros z.
    generalize (cat (map (fun d => cat ["@"; vtext tab 0 d; newline]) decs)). intros w.
    generalize (head_text tab 0 f args ret). intros y. text_eq.
  - rewrite !(app_assoc _ (fun_head c n)), !(app_assoc _ [Newline; Inc]). apply commented_keep.
    replace (after true _) with true by (unfold after; rewrite fold_left_app; reflexivity).
    apply (commented_app _ _ _ _ C1); [intros _; split; [reflexivity|apply commented_refl]|apply commented_refl].
Qed.

Lemma every_notes : forall l, Forall stmt_notes l.
Proof. intros l. apply Forall_forall. intros s _. apply all_notes. Qed.

Lemma def_notes : forall h c d n, quiet c -> cdnode d n -> easy_def h d -> spelled_def d = true ->
  exists x, says0 h x (fun tab => dtext tab d) /\ commented true true x (vy_emit c n).
Proof.
  intros h c d n Q H Z Sp. destruct d as [decs f args ret body|x pub con imm ty e|kw f body|f sigs|kw f body|m alias|m x alias];
    try (exists (vy_emit c n); split; [exact (def_says h c _ n Q H Z)|apply commented_refl]).
  - cbn [spelled_def] in Sp. rewrite !andb_true_iff in Sp. apply (fun_notes h c decs f args ret body n Q H Z (proj2 Sp)).
  - cbn [spelled_def] in Sp. rewrite !andb_true_iff in Sp. destruct Sp as (_ & Sp). unfold spelled_block in Sp. apply andb_true_iff in Sp. destruct Sp as (_ & Sb).
    destruct Z as (Of & Z). destruct h as [|h]; [destruct Z|]. cbn [inside] in Z. destruct H as (-> & A & F & ns & Fb & W).
    destruct (inner_rows h c body ns (proj1 Q) (every_notes body) Z Sb W) as (x1 & S1 & C1).
    exists ([Tok "struct"; Space; Tok f; Tok ":"; Newline; Inc] ++ x1 ++ [Dec]). split.
    + eapply says0_ext.
      { exact (says_top (says_cons_tok "struct" eq_refl (says_cons_space (says_cons_tok f Of (says_cons_tok ":" eq_refl (says_cons_newline S1)))))). }
      intros. cbn [dtext]. change (0 + 1)%N with 1%N.
      change (fun s => cat [margin tab 1; stext tab 1 s; newline]) with (full_line tab 1).
      cbv beta. generalize (cat (map (full_line tab 1) body)). intros z. text_eq.
    + rewrite (vy_at c n _ _ A eq_refl). unfold v_StructDef, v_body_nodes. rewrite (get_str_plain n "name" _ eq_refl F), (arr_of_fld _ _ _ Fb). cbn [opt].
      match goal with |- commented _ _ _ ?r => change r
        with ([Tok "struct"; Space; Tok f; Tok ":"; Newline; Inc] ++ flat_map (fun v => Indent :: vy_emit c v ++ [Newline]) ns ++ [Dec]) end.
      apply commented_keep. apply (commented_app _ _ _ _ C1); [discriminate|apply commented_refl].
  - cbn [spelled_def] in Sp. rewrite !andb_true_iff in Sp. destruct Sp as (_ & Sp). unfold spelled_block in Sp. apply andb_true_iff in Sp. destruct Sp as (Nb & Sb).
    destruct Z as (Of & Z). destruct h as [|h]; [destruct Z|]. cbn [inside] in Z. destruct H as (I & A & F & ns & Fb & W).
    destruct (inner_notes h c body ns (proj1 Q) (every_notes body) Z Sb W) as (x1 & S1 & C1); [intros ->; discriminate Nb|].
    assert (Ok : one_line kw) by (cbn in I; destruct I as [I|[I|[]]]; injection I as <-; reflexivity).
    assert (E : vy_emit c n = v_block_def kw c vy_emit n).
    { cbn in I. destruct I as [I|[I|[]]]; injection I as <-; exact (vy_at c n _ _ A eq_refl). }
    rewrite E. unfold v_block_def, v_indented_body. rewrite (get_str_plain n "name" _ eq_refl F), (arr_of_fld _ _ _ Fb). cbn [opt].
    exists ([Tok kw; Space; Tok f; Tok ":"; Newline; Inc] ++ x1 ++ [Dec]). split.
    + eapply says0_ext.
      { exact (says_top (says_cons_tok kw Ok (says_cons_space (says_cons_tok f Of (says_cons_tok ":" eq_refl (says_cons_newline S1)))))). }
      intros. cbn [dtext]. change (0 + 1)%N with 1%N.
      change (block_text tab 1 body) with (sjoin newline (map (line_text tab 1) body)).
      cbv beta. generalize (sjoin newline (map (line_text tab 1) body)). intros z. text_eq.
    + match goal with |- commented _ _ _ ?r => change r with ([Tok kw; Space; Tok f; Tok ":"; Newline; Inc] ++ v_indented (vy_emit c) ns ++ [Dec]) end.
      apply commented_keep. apply (commented_app _ _ _ _ C1); [intros _; split; [reflexivity|apply commented_refl]|apply commented_refl].
Qed.

Lemma program_notes : forall h c l n, quiet c -> cprogram_node l n -> Forall (easy_def h) l -> forallb spelled_def l = true ->
  exists x, says0 h x (fun tab => program_text tab l) /\ commented true false x (vy_emit c n).
Proof.
  intros h c l n Q (A & D & ns & F & W) Z Sp. rewrite (vy_at c n _ _ A eq_refl). unfold v_Module.
  assert (E : opt (oget n "doc_string") (fun v => opt (get_str v "value") (fun s => v_doc_string s ++ [Newline; Newline])) = []).
  { destruct D as [D|D]; rewrite D; reflexivity. }
  rewrite E, (arr_of_fld _ _ _ F). cbn [opt app]. clear E F D A.
  assert (G : forall cs x x', Forall a_comment cs -> commented true false x x' ->
    commented true false x (flat_map (fun v => vy_emit c v ++ [Newline; Newline]) cs ++ x')).
  { intros cs x x' Fc H. induction Fc as [|m cs Hm Fc IH]; [exact H|]. cbn [flat_map app]. rewrite <- !app_assoc. cbn [app].
    apply cm_top; [eexists _, _; split; [exact Hm|reflexivity]|exact IH]. }
  revert ns W. induction l as [|d l IH]; intros ns W.
  - exists []. split; [exact (says_top says_nil)|]. rewrite <- app_nil_r. apply G; [exact W|constructor].
  - destruct W as (cs & m & more & -> & Fc & R & W). inversion Z as [|? ? Zd Zl]; subst. cbn [forallb] in Sp. apply andb_true_iff in Sp. destruct Sp as (Sd & Sl).
    destruct (def_notes h c d m Q R Zd Sd) as (x1 & S1 & C1). destruct (IH Zl Sl more W) as (x2 & S2 & C2).
    exists (x1 ++ [Newline; Newline] ++ x2). split.
    + eapply says0_ext; [exact (says0_app S1 (says0_app (says_top (says_cons_newline (says_cons_newline says_nil))) S2))|].
      intros. cbv beta. change (program_text tab (d :: l)) with (String.append (cat [dtext tab d; newline; newline]) (program_text tab l)).
      generalize (program_text tab l). generalize (dtext tab d). intros y z. text_eq.
    + rewrite flat_map_app. apply G; [exact Fc|]. cbn [flat_map]. rewrite <- !app_assoc.
      assert (K : commented false false ([Newline; Newline] ++ x2) ([Newline; Newline] ++ flat_map (fun v => vy_emit c v ++ [Newline; Newline]) more))
        by (apply commented_keep; exact C2).
      apply (commented_app _ _ _ _ C1); [intros _; split; [reflexivity|exact K]|now apply commented_any].
Qed.
