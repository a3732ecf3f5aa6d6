(** The Vyper printer writes the text of the program (statements and definitions). *)
From Coq Require Import String Ascii List NArith ZArith Bool Lia.
From Verif Require Import Base Json JsonFacts VyMutators Printer VyPrinter SpecPrinter SpecLiteral SpecVyText
  TextFacts LayoutFacts EmitFacts VyEmit PrintFacts LitFacts IdealFacts VyText.
Import ListNotations.
Open Scope string_scope.
Open Scope list_scope.

Lemma vstmt_ind' : forall P : vstmt -> Prop,
  (forall e, P (VsExpr e)) -> (forall t e, P (VsAssign t e)) -> (forall t op e, P (VsAug t op e)) ->
  (forall t ty e, P (VsAnn t ty e)) -> (forall e, P (VsReturn e)) -> (forall e m, P (VsAssert e m)) ->
  (forall e, P (VsRaise e)) -> (forall e, P (VsLog e)) -> (forall w, P (VsWord w)) ->
  (forall e body orelse, Forall P body -> Forall P orelse -> P (VsIf e body orelse)) ->
  (forall t it body, Forall P body -> P (VsFor t it body)) ->
  forall s, P s.
Proof.
  intros P H1 H2 H3 H4 H5 H6 H7 H8 H9 H10 H11. fix IH 1. intros s. destruct s.
  - apply H1. - apply H2. - apply H3. - apply H4. - apply H5. - apply H6. - apply H7. - apply H8. - apply H9.
  - apply H10.
    + revert body. fix G 1. intros [|x l]; constructor; [apply IH|apply G].
    + revert orelse. fix G 1. intros [|x l]; constructor; [apply IH|apply G].
  - apply H11. revert body. fix G 1. intros [|x l]; constructor; [apply IH|apply G].
Qed.

(** ** Tuples *)

Lemma speak_list : forall h c es ns, Forall (easy h) es -> elements vnode es ns ->
  Forall2 (fun e n => says h (vy_emit c n) (fun tab ind => vtext tab ind e)) es ns.
Proof.
  intros h c es ns Z H. apply speaks_elements; [|exact Z|exact H]. apply Forall_forall. intros e _. apply all_speak.
Qed.

Lemma tuple_bare : forall h c t n, tnode t n -> easy_top h t -> vc_tuple_parens c = false ->
  says h (vy_emit c n) (fun tab ind => ttext tab ind t).
Proof.
  intros h c t n H Z P. destruct t as [e|l]; [exact (all_speak e h c n H Z)|].
  destruct H as (A & ns & F & El). rewrite (vy_at c n _ _ A eq_refl). unfold v_Tuple, v_array.
  rewrite P, (arr_of_fld _ _ _ F). cbn [opt when].
  eapply says_ext.
  { apply says_app; [exact says_nil|]. apply says_app; [|exact says_nil].
    apply (says_commas _ _ _ (fun e tab ind => vtext tab ind e) l). apply (speak_list h c l ns Z El). }
  text_eq.
Qed.

Lemma tuple_paren : forall h c t n, tnode t n -> easy_top h t -> vc_tuple_parens c = true ->
  says h (vy_emit c n) (fun tab ind => type_text tab ind t).
Proof.
  intros h c t n H Z P. destruct t as [e|l]; [exact (all_speak e h c n H Z)|].
  destruct H as (A & ns & F & El). rewrite (vy_at c n _ _ A eq_refl). unfold v_Tuple, v_array.
  rewrite P, (arr_of_fld _ _ _ F). cbn [opt when].
  eapply says_ext.
  { apply says_app; [exact (says_tok "(" eq_refl)|]. apply says_app; [|exact (says_tok ")" eq_refl)].
    apply (says_commas _ _ _ (fun e tab ind => vtext tab ind e) l). apply (speak_list h c l ns Z El). }
  text_eq.
Qed.

Lemma is_a_object : forall n ty, is_a n ty -> is_object n = true /\ is_null n = false.
Proof. intros n ty H. destruct n; try discriminate H. split; reflexivity. Qed.

Lemma vnode_object : forall e n, vnode e n -> is_object n = true /\ is_null n = false.
Proof. intros e n H. exact (is_a_object n _ (vnode_type e n H)). Qed.

Lemma tnode_object : forall t n, tnode t n -> is_object n = true /\ is_null n = false.
Proof. intros [e|l] n H; [exact (vnode_object e n H)|exact (is_a_object n _ (proj1 H))]. Qed.

Lemma assigned : forall h c o n, onode vnode o n "value" -> oeasy (easy h) o ->
  says h (v_value_assignment (vy_emit c) n) (fun tab ind => otext o (fun e => String.append " = " (vtext tab ind e))).
Proof.
  intros h c o n H Z. unfold v_value_assignment. destruct o as [e|].
  - destruct H as (v & F & N). rewrite F. cbn [opt]. rewrite (proj2 (vnode_object e v N)).
    exact (says_cons_tok " = " eq_refl (all_speak e h c v N Z)).
  - destruct H as [E|E]; rewrite E; exact says_nil.
Qed.

(** ** Statements *)

Definition states (s : vstmt) : Prop :=
  forall h c n, vc_tuple_parens c = false -> snode s n -> easy_stmt h s -> says h (vy_emit c n) (fun tab ind => stext tab ind s).

Definition line_text (tab ind : N) (s : vstmt) : string := String.append (margin tab ind) (stext tab ind s).
Definition full_line (tab ind : N) (s : vstmt) : string := cat [margin tab ind; stext tab ind s; newline].

Lemma block_easy : forall h l, (fix block l := match l with [] => True | s :: l => easy_stmt h s /\ block l end) l -> Forall (easy_stmt h) l.
Proof. intros h. induction l as [|s l IH]; [constructor|]. intros (H & G). constructor; [exact H|apply IH, G]. Qed.

Lemma block_nodes : forall l ns,
  (fix go l ns := match l, ns with [], [] => True | s :: l, n :: ns => snode s n /\ go l ns | _, _ => False end) l ns ->
  Forall2 snode l ns.
Proof.
  induction l as [|s l IH]; intros [|n ns] H; try contradiction; constructor; [apply H|apply IH, H].
Qed.

Lemma says_indented : forall h c l ns, vc_tuple_parens c = false -> Forall states l -> Forall (easy_stmt h) l -> Forall2 snode l ns ->
  says h (v_indented (vy_emit c) ns) (fun tab ind => sjoin newline (map (line_text tab ind) l)).
Proof.
  intros h c l ns P S Z F. unfold v_indented.
  apply (says_each _ _ _ _ (fun s tab ind => line_text tab ind s) newline l ns).
  - induction F; inversion S; inversion Z; subst; constructor; [|auto].
    apply says_cons_indent. auto.
  - intros n. exact (says_cons_newline says_nil).
Qed.

Lemma says_lines : forall h c l ns, vc_tuple_parens c = false -> Forall states l -> Forall (easy_stmt h) l -> Forall2 snode l ns ->
  says h (flat_map (fun v => Indent :: vy_emit c v ++ [Newline]) ns) (fun tab ind => cat (map (full_line tab ind) l)).
Proof.
  intros h c l ns P S Z F. apply (says_flat_map _ _ _ (fun s tab ind => full_line tab ind s) l ns).
  induction F; inversion S; inversion Z; subst; constructor; [|auto].
  eapply says_ext; [apply says_cons_indent; apply says_app; [|exact (says_cons_newline says_nil)]|].
  - match goal with H : states x |- _ => apply (H h c); auto end.
  - unfold full_line. text_eq.
Qed.

Lemma inner_block : forall h c l ns, vc_tuple_parens c = false -> Forall states l -> Forall (easy_stmt h) l -> Forall2 snode l ns ->
  says (S h) (Inc :: v_indented (vy_emit c) ns ++ [Dec]) (fun tab ind => sjoin newline (map (line_text tab (ind + 1)) l)).
Proof.
  intros h c l ns P S Z F. exact (says_inside (says_indented h c l ns P S Z F)).
Qed.

Lemma all_state : forall s, states s.
Proof.
  induction s as [e|t e|t op e|t ty e|e|e m|e|e|w|e body orelse IHb IHo|t it body IHb] using vstmt_ind'; intros h c n P H Z; cbn [snode] in H; cbn [easy_stmt] in Z.
  - destruct H as (A & v & F & N). rewrite (vy_at c n _ _ A eq_refl). unfold v_Expr. rewrite (sub_fld _ _ _ _ F).
    exact (all_speak e h c v N Z).
  - destruct H as (A & (x & Fx & Nx) & (y & Fy & Ny)). destruct Z as (Zt & Ze). rewrite (vy_at c n _ _ A eq_refl). unfold v_Assign.
    rewrite (sub_fld _ _ _ _ Fx), (sub_fld _ _ _ _ Fy).
    eapply says_ext; [exact (says_app (tuple_bare h c t x Nx Zt P) (says_cons_tok " = " eq_refl (tuple_bare h c e y Ny Ze P)))|].
    intros. cbn [stext]. text_eq.
  - destruct H as (A & O & (x & Fx & Nx) & (y & Fy & Ny)). destruct Z as (Sh & Zt & Ze). pose proof (binary_line n op O) as Op. rewrite (vy_at c n _ _ A eq_refl). unfold v_AugAssign.
    rewrite (sub_fld _ _ _ _ Fx), (sub_fld _ _ _ _ Fy), (symbol_binary n op O Sh). cbn [opt].
    eapply says_ext.
    { apply says_app; [exact (all_speak t h c x Nx Zt)|]. sp; tk; tk; sp.
      exact (all_speak e h c y Ny Ze). }
    intros. cbn [stext]. text_eq.
  - destruct H as (A & (x & Fx & Nx) & (y & Fy & Ny) & V). destruct Z as (Zt & Zy & Ze). rewrite (vy_at c n _ _ A eq_refl). unfold v_AnnAssign.
    rewrite (sub_fld _ _ _ _ Fx), Fy. cbn [opt].
    eapply says_ext.
    { apply says_app; [exact (all_speak t h c x Nx Zt)|]. apply says_app; [|exact (assigned h c e n V Ze)].
      tk; sp. exact (all_speak ty h c y Ny Zy). }
    intros. cbn [stext]. text_eq.
  - destruct H as (A & V). rewrite (vy_at c n _ _ A eq_refl). unfold v_Return. destruct e as [e|].
    + destruct V as (v & F & N). rewrite F. cbn [opt]. rewrite (proj2 (tnode_object e v N)).
      exact (says_cons_tok "return" eq_refl (says_cons_space (tuple_bare h c e v N Z P))).
    + destruct V as [E|E]; rewrite E; exact (says_tok "return" eq_refl).
  - destruct H as (A & (x & Fx & Nx) & V). destruct Z as (Ze & Zm). rewrite (vy_at c n _ _ A eq_refl). unfold v_Assert.
    rewrite (sub_fld _ _ _ _ Fx).
    assert (M : says h (opt (oget n "msg") (fun v => if is_object v then [Tok ","; Space] ++ vy_emit c v else []))
                     (fun tab ind => otext m (fun e => String.append ", " (vtext tab ind e)))).
    { destruct m as [m|].
      - destruct V as (v & F & N). rewrite F. cbn [opt]. rewrite (proj1 (vnode_object m v N)).
        exact (says_cons_tok "," eq_refl (says_cons_space (all_speak m h c v N Zm))).
      - destruct V as [E|E]; rewrite E; exact says_nil. }
    eapply says_ext; [tk; sp; apply says_app; [exact (all_speak e h c x Nx Ze)|exact M]|].
    intros. cbn [stext]. text_eq.
  - destruct H as (A & v & F & N). rewrite (vy_at c n _ _ A eq_refl). unfold v_Raise. rewrite (sub_fld _ _ _ _ F).
    exact (says_cons_tok "raise" eq_refl (says_cons_space (all_speak e h c v N Z))).
  - destruct H as (A & v & F & N). rewrite (vy_at c n _ _ A eq_refl). unfold v_Log. rewrite F. cbn [opt].
    rewrite (proj2 (vnode_object e v N)).
    exact (says_cons_tok "log" eq_refl (says_cons_space (all_speak e h c v N Z))).
  - destruct H as (ty & I & A). cbn in I.
    repeat (destruct I as [I|I]; [injection I as <- <-; rewrite (vy_at c n _ _ A eq_refl); apply says_tok; reflexivity|]). destruct I.
  - destruct H as (A & (x & Fx & Nx) & (bs & Fb & Nb) & (os & Fo & No)). destruct Z as (Ze & Zb & Zo).
    destruct h as [|h]; [destruct Zb|]. cbn [inside] in Zb, Zo.
    apply block_nodes in Nb. apply block_nodes in No. apply block_easy in Zb. apply block_easy in Zo.
    rewrite (vy_at c n _ _ A eq_refl). unfold v_If, v_indented_body.
    rewrite (sub_fld _ _ _ _ Fx), (arr_of_fld _ _ _ Fb), (arr_of_fld _ _ _ Fo). cbn [opt].
    pose proof (inner_block h c body bs P IHb Zb Nb) as S1.
    pose proof (inner_block h c orelse os P IHo Zo No) as S2.
    assert (S3 : says (S h) (when (not_empty os) ([Newline; Indent; Tok "else:"; Newline; Inc] ++ v_indented (vy_emit c) os ++ [Dec]))
      (fun tab ind => match orelse with [] => "" | _ => cat [newline; margin tab ind; "else:"; newline; sjoin newline (map (line_text tab (ind + 1)) orelse)] end)).
    { destruct orelse as [|s orelse]; inversion No; subst; [exact says_nil|]. cbn [not_empty when].
      eapply says_ext; [exact (says_cons_newline (says_cons_indent (says_cons_tok "else:" eq_refl (says_cons_newline S2))))|].
      intros. cbv beta. generalize (sjoin newline (map (line_text tab (ind + 1)) (s :: orelse))). intros z. text_eq. }
    eapply says_ext.
    { tk; sp; apply says_app; [exact (all_speak e (S h) c x Nx Ze)|].
      change ([Tok ":"; Newline; Inc] ++ v_indented (vy_emit c) bs ++ [Dec] ++
              when (not_empty os) ([Newline; Indent; Tok "else:"; Newline; Inc] ++ v_indented (vy_emit c) os ++ [Dec]))
        with (Tok ":" :: Newline :: (Inc :: v_indented (vy_emit c) bs ++ [Dec] ++
              when (not_empty os) ([Newline; Indent; Tok "else:"; Newline; Inc] ++ v_indented (vy_emit c) os ++ [Dec]))).
      tk; nl. rewrite app_assoc, app_comm_cons. apply says_app; [exact S1|exact S3]. }
    intros. cbn [stext].
    change (fun s => String.append (margin tab (ind + 1)) (stext tab (ind + 1) s)) with (line_text tab (ind + 1)).
    cbv beta. generalize (sjoin newline (map (line_text tab (ind + 1)) body)). intros z. text_eq.
  - destruct H as (A & (x & Fx & Nx) & (y & Fy & Ny) & (bs & Fb & Nb)). destruct Z as (Zt & Zi & Zb).
    destruct h as [|h]; [destruct Zb|]. cbn [inside] in Zb.
    apply block_nodes in Nb. apply block_easy in Zb.
    rewrite (vy_at c n _ _ A eq_refl). unfold v_For, v_body_nodes.
    rewrite (sub_fld _ _ _ _ Fx), (sub_fld _ _ _ _ Fy), (arr_of_fld _ _ _ Fb). cbn [opt].
    pose proof (says_inside (says_lines h c body bs P IHb Zb Nb)) as S1.
    eapply says_ext.
    { tk; sp; apply says_app; [exact (all_speak t (S h) c x Nx Zt)|].
      sp; tk; sp; apply says_app; [exact (all_speak it (S h) c y Ny Zi)|].
      exact (says_cons_tok ":" eq_refl (says_cons_newline S1)). }
    intros. cbn [stext].
    change (fun s => cat [margin tab (ind + 1); stext tab (ind + 1) s; newline]) with (full_line tab (ind + 1)).
    cbv beta. generalize (cat (map (full_line tab (ind + 1)) body)). intros z. text_eq.
Qed.

(** ** Arguments *)

Lemma arg_says : forall h c a n, anode a n -> easy_arg h a ->
  says h (vy_emit c n) (fun tab ind => cat [va_name a; otext (va_type a) (fun t => String.append ": " (vtext tab ind t))]).
Proof.
  intros h c a n (A & F & T) (O & Z & _). rewrite (vy_at c n _ _ A eq_refl). unfold v_arg.
  rewrite (get_str_plain n "arg" _ eq_refl F). cbn [opt]. destruct (va_type a) as [t|].
  - destruct T as (v & Fv & N). rewrite Fv. cbn [opt]. rewrite (proj2 (vnode_object t v N)).
    eapply says_ext; [exact (says_cons_tok _ O (says_cons_tok ":" eq_refl (says_cons_space (all_speak t h c v N Z))))|]. text_eq.
  - destruct T as [E|E]; rewrite E; (eapply says_ext; [exact (says_tok (va_name a) O)|]; text_eq).
Qed.

Lemma comma_says : forall h A (l : list A), says h (when (not_empty l) [Tok ","; Space]) (fun _ _ => if not_empty l then ", " else "").
Proof.
  intros h A [|x l]; [exact says_nil|]. exact (says_cons_tok "," eq_refl (says_cons_space says_nil)).
Qed.

Lemma sjoin_cons : forall A (f : A -> string) x l,
  sjoin ", " (map f (x :: l)) = cat [f x; if not_empty l then ", " else ""; sjoin ", " (map f l)].
Proof. intros A f x [|y l]; text_eq. Qed.

Lemma args_tail : forall h c first D b ns pre ds i, Forall2 anode b ns -> Forall (easy_arg h) b ->
  Forall (fun x => va_default x <> None) b -> Forall2 vnode (defaults b) ds ->
  D = pre ++ ds -> i = first + length pre ->
  says h (v_args (vy_emit c) first i ns D) (fun tab ind => sjoin ", " (map (arg_text tab ind) b)).
Proof.
  intros h c first D b ns pre ds i F. revert pre ds i. induction F as [|a n b ns H F IH]; intros pre ds i Z S V -> ->; [exact says_nil|].
  inversion Z as [|? ? Za Zb]; subst. inversion S as [|? ? Sa Sb]; subst.
  cbn [defaults flat_map] in V. destruct (va_default a) as [d|] eqn:Ed; [|contradiction].
  cbn [app] in V. inversion V as [|? x ? ds' Nd V']; subst. cbn [v_args].
  replace (Nat.leb first (first + length pre)) with true by (symmetry; apply Nat.leb_le; lia).
  replace (first + length pre - first) with (length pre) by lia.
  rewrite nth_error_app2 by lia. rewrite Nat.sub_diag. cbn [nth_error].
  assert (Zd : easy h d) by (destruct Za as (_ & _ & Zd); rewrite Ed in Zd; exact Zd).
  eapply says_ext.
  { apply says_app; [exact (arg_says h c a n H Za)|].
    apply says_app; [exact (says_cons_tok "=" eq_refl (all_speak d h c x Nd Zd))|].
    apply says_app; [exact (comma_says h _ ns)|].
    apply (IH (pre ++ [x]) ds'); [exact Zb|exact Sb|exact V'|now rewrite <- app_assoc|rewrite app_length; cbn; lia]. }
  intros. rewrite sjoin_cons. unfold arg_text at 2. rewrite Ed. cbn [otext].
  replace (not_empty ns) with (not_empty b) by (destruct F; reflexivity).
  generalize (sjoin ", " (map (arg_text tab ind) b)). intros z. text_eq.
Qed.

Lemma args_says : forall h c first D a b ns i, Forall2 anode (a ++ b) ns -> Forall (easy_arg h) (a ++ b) ->
  Forall (fun x => va_default x = None) a ->
  Forall (fun x => va_default x <> None) b -> Forall2 vnode (defaults b) D ->
  i + length a = first ->
  says h (v_args (vy_emit c) first i ns D) (fun tab ind => sjoin ", " (map (arg_text tab ind) (a ++ b))).
Proof.
  intros h c first D a. induction a as [|x a IH]; intros b ns i F Z N Sb V E.
  - apply (args_tail h c first D b ns [] D i F Z Sb V eq_refl). cbn in *. lia.
  - inversion F as [|? n ? ns' H F']; subst. inversion Z as [|? ? Zx Za]; subst. inversion N as [|? ? Nx Na]; subst.
    cbn [v_args length].
    replace (Nat.leb (i + S (length a)) i) with false by (symmetry; apply Nat.leb_gt; lia).
    eapply says_ext.
    { apply says_app; [exact (arg_says h c x n H Zx)|]. apply says_app; [exact says_nil|].
      apply says_app; [exact (comma_says h _ ns')|].
      apply (IH b ns' (S i) F' Za Na Sb V). cbn [length]. lia. }
    intros. cbn [app]. rewrite sjoin_cons. unfold arg_text at 2. rewrite Nx. cbn [otext].
    replace (not_empty ns') with (not_empty (a ++ b)) by (destruct F'; reflexivity).
    cbv beta. generalize (sjoin ", " (map (arg_text tab ind) (a ++ b))). intros z. text_eq.
Qed.

Lemma defaults_none : forall a, Forall (fun x => va_default x = None) a -> defaults a = [].
Proof. intros a H. induction H as [|x a E H IH]; [reflexivity|]. unfold defaults. cbn. rewrite E. exact IH. Qed.

Lemma defaults_all : forall b, Forall (fun x => va_default x <> None) b -> length (defaults b) = length b.
Proof.
  intros b H. induction H as [|x b E H IH]; [reflexivity|]. unfold defaults. cbn. destruct (va_default x); [|contradiction].
  cbn. now rewrite <- IH.
Qed.

Lemma arguments_say : forall h c args n, is_a n "arguments" ->
  (exists ns, fld n "args" (JArr ns) /\ Forall2 anode args ns) ->
  (exists ds, fld n "defaults" (JArr ds) /\ Forall2 vnode (defaults args) ds) -> defaults_last args -> Forall (easy_arg h) args ->
  says h (vy_emit c n) (fun tab ind => sjoin ", " (map (arg_text tab ind) args)).
Proof.
  intros h c args n A (ns & Fn & N) (ds & Fd & D) (a & b & -> & Na & Sb) Z.
  rewrite (vy_at c n _ _ A eq_refl). unfold v_arguments, v_array.
  rewrite (arr_of_fld _ _ _ Fd), (arr_of_fld _ _ _ Fn). cbn [opt].
  assert (Ed : defaults (a ++ b) = defaults b).
  { unfold defaults. rewrite flat_map_app. fold (defaults a). now rewrite (defaults_none a Na). }
  rewrite Ed in D. pose proof (Forall2_same_length _ _ _ _ _ D) as L. rewrite (defaults_all b Sb) in L.
  pose proof (Forall2_same_length _ _ _ _ _ N) as L2. rewrite app_length in L2.
  destruct ds as [|d ds]; cbn [not_empty].
  - destruct b; [|discriminate]. rewrite app_nil_r in *.
    apply (says_commas _ _ _ (fun a tab ind => arg_text tab ind a) a ns).
    clear Fn L2 Sb Ed D. induction N as [|x y a ns H N IH]; inversion Na as [|? ? E Na']; inversion Z as [|? ? Zx Za]; subst; constructor; [|exact (IH Na' Za)].
    eapply says_ext; [exact (arg_says h c x y H Zx)|]. intros. unfold arg_text. rewrite E. cbn [otext]. text_eq.
  - replace (Nat.leb (length (d :: ds)) (length ns)) with true by (symmetry; apply Nat.leb_le; lia).
    apply (args_says h c _ (d :: ds) a b ns 0 N Z Na Sb D). lia.
Qed.

(** ** Definitions *)

(** At the left margin. *)
Definition says0 (h : nat) (l : list cmd) (t : N -> string) : Prop :=
  plain l /\ balanced l /\ Forall one_line (tokens l) /\ (forall ind, climb ind l <= ind + N.of_nat h)%N /\
  forall tab, ideal tab 0 l = t tab.

Lemma says_top : forall h l t, says h l t -> says0 h l (fun tab => t tab 0%N).
Proof. intros h l t (P & B & O & C & E). repeat (split; [assumption|]). intros. apply E. Qed.

Lemma says0_ext : forall h l t t', says0 h l t -> (forall tab, t tab = t' tab) -> says0 h l t'.
Proof. intros h l t t' (P & B & O & C & E) H. repeat (split; [assumption|]). intros. now rewrite E. Qed.

Lemma says0_app : forall h a b s t, says0 h a s -> says0 h b t -> says0 h (a ++ b) (fun tab => String.append (s tab) (t tab)).
Proof.
  intros h a b s t (P1 & B1 & O1 & C1 & E1) (P2 & B2 & O2 & C2 & E2). split; [now apply Forall_app|]. split; [now apply bal_app|].
  split; [rewrite tokens_app; now apply Forall_app|]. split; [intros ind; rewrite climb_app by exact B1; specialize (C1 ind); specialize (C2 ind); lia|].
  intros tab. now rewrite ideal_app, E1, E2.
Qed.

Arguments says_top [h l t].
Arguments says0_app [h a b s t].

Lemma margin_0 : forall tab, margin tab 0 = "".
Proof. reflexivity. Qed.

Lemma speak_all : forall h c es ns, Forall (easy h) es -> Forall2 vnode es ns ->
  Forall2 (fun e n => says h (vy_emit c n) (fun tab ind => vtext tab ind e)) es ns.
Proof. intros h c es ns Z F. induction F; inversion Z; subst; constructor; auto. apply all_speak; auto. Qed.

(** What a function prints before its body. *)
Definition fun_head (c : vctx) (n : json) : list cmd :=
  [Tok "def"; Space] ++
  opt (get_str n "name") (fun s => [Tok s]) ++
  [Tok "("] ++ sub (vy_emit c) n "args" ++ [Tok ")"] ++
  opt (oget n "returns") (fun v =>
    if is_null v then []
    else [Space; Tok "->"; Space] ++ vy_emit (set_parens c true) v) ++
  [Tok ":"].

Definition fun_decs (c : vctx) (n : json) : list cmd :=
  opt (arr_of n "decorator_list") (fun l => v_decorators (vy_emit c) l ++ when (not_empty l) [Indent]).

Definition fun_body (c : vctx) (n : json) : list cmd :=
  if vc_decl_form c then [Space] ++ v_array (vy_emit c) "body" n
  else opt (arr_of n "body") (fun l => [Newline; Inc] ++ v_indented (vy_emit c) l ++ [Dec]).

Lemma fun_parts : forall c decs f args ret n, head_node decs f args ret n ->
  vy_emit c n = fun_decs c n ++ fun_head c n ++ fun_body c n.
Proof.
  intros c decs f args ret n (A & _ & _ & _ & _ & D). rewrite (vy_at c n _ _ A eq_refl). unfold v_FunctionDef, fun_decs, fun_head, fun_body.
  destruct D as [D|D]; rewrite D; cbn [opt is_null]; rewrite <- !app_assoc; reflexivity.
Qed.

Lemma head_says : forall h c decs f args ret n, head_node decs f args ret n -> one_line f ->
  Forall (easy_arg h) args -> oeasy (easy_top h) ret ->
  says h (fun_head c n) (fun tab ind => head_text tab ind f args ret).
Proof.
  intros h c decs f args ret n (_ & _ & F & (a & Fa & Aa & X & Y & L) & R & _) Of Za Zr. unfold fun_head.
  rewrite (get_str_plain n "name" _ eq_refl F), (sub_fld _ _ _ _ Fa). cbn [opt].
  assert (S : says h (opt (oget n "returns") (fun v => if is_null v then [] else [Space; Tok "->"; Space] ++ vy_emit (set_parens c true) v))
                   (fun tab ind => otext ret (fun t => String.append " -> " (type_text tab ind t)))).
  { destruct ret as [t|].
    - destruct R as (v & Fv & Nv). rewrite Fv. cbn [opt]. rewrite (proj2 (tnode_object t v Nv)).
      exact (says_cons_space (says_cons_tok "->" eq_refl (says_cons_space (tuple_paren h (set_parens c true) t v Nv Zr eq_refl)))).
    - destruct R as [E|E]; rewrite E; exact says_nil. }
  eapply says_ext.
  { tk; sp; tk; tk; apply says_app; [exact (arguments_say h c args a Aa X Y L Za)|].
    tk; apply says_app; [exact S|exact (says_tok ":" eq_refl)]. }
  intros. unfold head_text. text_eq.
Qed.

Lemma decorator_says : forall h c e n, vnode e n -> easy h e ->
  says0 h (Indent :: Tok "@" :: vy_emit c n ++ [Newline]) (fun tab => cat ["@"; vtext tab 0 e; newline]).
Proof.
  intros h c e n H Z. eapply says0_ext.
  - exact (says_top (says_cons_indent (says_cons_tok "@" eq_refl (says_app (all_speak e h c n H Z) (says_cons_newline says_nil))))).
  - intros. cbv beta. rewrite margin_0. text_eq.
Qed.

Lemma says0_flat_map : forall A h (f : json -> list cmd) (T : A -> N -> string) l ns,
  Forall2 (fun e n => says0 h (f n) (T e)) l ns ->
  says0 h (flat_map f ns) (fun tab => cat (map (fun e => T e tab) l)).
Proof.
  intros A h f T l ns F. induction F as [|e n l ns H F IH]; [exact (says_top says_nil)|].
  exact (says0_app H IH).
Qed.

Lemma decs_say : forall h c decs f args ret n, head_node decs f args ret n -> Forall (easy h) decs ->
  says0 h (fun_decs c n) (fun tab => cat (map (fun d => cat ["@"; vtext tab 0 d; newline]) decs)).
Proof.
  intros h c decs f args ret n (_ & (ns & F & N) & _) Z. unfold fun_decs. rewrite (arr_of_fld _ _ _ F). cbn [opt].
  destruct N as [|d x decs ns Nd N]; [exact (says_top says_nil)|]. inversion Z as [|? ? Zd Zs]; subst.
  cbn [v_decorators not_empty when].
  assert (S : says0 h (flat_map (fun d => Indent :: Tok "@" :: vy_emit c d ++ [Newline]) ns)
                    (fun tab => cat (map (fun d => cat ["@"; vtext tab 0 d; newline]) decs))).
  { apply (says0_flat_map _ _ _ (fun d tab => cat ["@"; vtext tab 0 d; newline])).
    clear Z F. induction N; inversion Zs; subst; constructor; auto. now apply decorator_says. }
  eapply says0_ext.
  { change ((Tok "@" :: vy_emit c x ++ [Newline] ++ flat_map (fun d => Indent :: Tok "@" :: vy_emit c d ++ [Newline]) ns) ++ [Indent])
      with (([Tok "@"] ++ vy_emit c x ++ [Newline] ++ flat_map (fun d => Indent :: Tok "@" :: vy_emit c d ++ [Newline]) ns) ++ [Indent]).
    apply says0_app; [|exact (says_top (says_cons_indent says_nil))].
    apply says0_app; [exact (says_top (says_tok "@" eq_refl))|].
    apply says0_app; [exact (says_top (all_speak d h c x Nd Zd))|].
    apply says0_app; [exact (says_top (says_cons_newline says_nil))|exact S]. }
  intros. cbv beta. rewrite margin_0. cbn [map]. change (cat (cat ["@"; vtext tab 0 d; newline] :: map (fun d => cat ["@"; vtext tab 0 d; newline]) decs))
    with (String.append (cat ["@"; vtext tab 0 d; newline]) (cat (map (fun d => cat ["@"; vtext tab 0 d; newline]) decs))).
  cbv beta. generalize (cat (map (fun d => cat ["@"; vtext tab 0 d; newline]) decs)). intros z. text_eq.
Qed.

Lemma flag_of : forall n k b, plain_key k = true -> flag_is n k b -> flag n k = b.
Proof.
  intros n k b P [H|(-> & H)]; unfold flag, get_bool; rewrite (kget_plain n k P), H; reflexivity.
Qed.

Lemma every_states : forall l, Forall states l.
Proof. intros l. apply Forall_forall. intros s _. apply all_state. Qed.

Definition quiet (c : vctx) : Prop := vc_tuple_parens c = false /\ vc_decl_form c = false.

Lemma fun_says : forall h c decs f args ret body n, quiet c -> dnode (VdFun decs f args ret body) n ->
  easy_def h (VdFun decs f args ret body) -> says0 h (vy_emit c n) (fun tab => dtext tab (VdFun decs f args ret body)).
Proof.
  intros h c decs f args ret body n (P & Q) (H & ns & F & N) (Of & Zd & Za & Zr & Zb).
  destruct h as [|h]; [destruct Zb|]. cbn [inside] in Zb.
  rewrite (fun_parts c decs f args ret n H). unfold fun_body. rewrite Q, (arr_of_fld _ _ _ F). cbn [opt].
  eapply says0_ext.
  { apply says0_app; [exact (decs_say (S h) c decs f args ret n H Zd)|].
    apply says0_app; [exact (says_top (head_says (S h) c decs f args ret n H Of Za Zr))|].
    exact (says_top (says_cons_newline (inner_block h c body ns P (every_states body) Zb N))). }
  intros. cbn [dtext]. change (0 + 1)%N with 1%N.
  change (block_text tab 1 body) with (sjoin newline (map (line_text tab 1) body)).
  cbv beta. generalize (sjoin newline (map (line_text tab 1) body)). intros z.
  generalize (cat (map (fun d => cat ["@"; vtext tab 0 d; newline]) decs)). intros w.
  generalize (head_text tab 0 f args ret). intros y. text_eq.
Qed.

Lemma sig_says : forall h c g n, vc_decl_form c = true -> signode g n -> one_line (vg_name g) ->
  Forall (easy_arg h) (vg_args g) -> oeasy (easy_top h) (vg_ret g) -> easy h (vg_body g) ->
  says h (vy_emit c n) (fun tab ind => cat [head_text tab ind (vg_name g) (vg_args g) (vg_ret g); " "; vtext tab ind (vg_body g)]).
Proof.
  intros h c g n Q (H & x & v & F & A & Fv & N) Og Za Zr Zb.
  rewrite (fun_parts c _ _ _ _ n H). unfold fun_body, v_array. rewrite Q, (arr_of_fld _ _ _ F). cbn [opt].
  assert (D : fun_decs c n = []).
  { destruct H as (_ & (ns & Fd & Nd) & _). inversion Nd; subst. unfold fun_decs. rewrite (arr_of_fld _ _ _ Fd). reflexivity. }
  rewrite D. cbn [app].
  assert (S : says h (vy_emit c x) (fun tab ind => vtext tab ind (vg_body g))).
  { rewrite (vy_at c x _ _ A eq_refl). unfold v_Expr. rewrite (sub_fld _ _ _ _ Fv). exact (all_speak _ h c v N Zb). }
  eapply says_ext.
  { apply says_app; [exact (head_says h c _ _ _ _ n H Og Za Zr)|]. sp.
    apply (says_commas _ _ _ (fun e tab ind => vtext tab ind e) [vg_body g]). constructor; [exact S|constructor]. }
  intros. cbv beta. generalize (head_text tab ind (vg_name g) (vg_args g) (vg_ret g)). intros y. cbn [map]. unfold sjoin. cbn [String.concat]. text_eq.
Qed.

Lemma def_says : forall h c d n, quiet c -> dnode d n -> easy_def h d -> says0 h (vy_emit c n) (fun tab => dtext tab d).
Proof.
  intros h c d n Q H Z. destruct d as [decs f args ret body|x pub con imm ty e|kw f body|f sigs|kw f body|m alias|m x alias].
  - exact (fun_says h c decs f args ret body n Q H Z).
  - destruct Q as (P & _). destruct H as (A & (v & Fv & Nv) & F1 & F2 & F3 & (t & Ft & Nt) & V). destruct Z as (Zx & Zt & Ze).
    rewrite (vy_at c n _ _ A eq_refl). unfold v_VariableDecl. rewrite Fv. cbn [opt].
    rewrite (flag_of n "is_public" _ eq_refl F1), (flag_of n "is_constant" _ eq_refl F2), (flag_of n "is_immutable" _ eq_refl F3), (sub_fld _ _ _ _ Ft).
    assert (K : forall (b : bool) w, one_line w -> says h (when b [Tok w; Tok "("]) (fun _ _ => if b then cat [w; "("] else "")).
    { intros [|] w W; [|exact says_nil]. exact (says_cons_tok _ W (says_tok "(" eq_refl)). }
    assert (R : forall (b : bool), says h (when b [Tok ")"]) (fun _ _ => if b then ")" else "")).
    { intros [|]; [exact (says_tok ")" eq_refl)|exact says_nil]. }
    eapply says0_ext.
    { apply says_top. apply says_app; [exact (all_speak x h c v Nv Zx)|]. tk; sp.
      apply says_app; [apply K; reflexivity|]. apply says_app; [apply K; reflexivity|]. apply says_app; [apply K; reflexivity|].
      apply says_app; [exact (tuple_paren h (set_parens c true) ty t Nt Zt eq_refl)|].
      apply says_app; [apply R|]. apply says_app; [apply R|]. apply says_app; [apply R|].
      exact (assigned h c e n V Ze). }
    intros. cbn [dtext]. cbv beta. generalize (type_text tab 0 ty). intros y. generalize (otext e (fun e => String.append " = " (vtext tab 0 e))). intros w.
    destruct pub, con, imm; text_eq.
  - destruct Z as (Of & Z). destruct h as [|h]; [destruct Z|]. cbn [inside] in Z. destruct H as (-> & A & F & ns & Fb & N). rewrite (vy_at c n _ _ A eq_refl). unfold v_StructDef, v_body_nodes.
    rewrite (get_str_plain n "name" _ eq_refl F), (arr_of_fld _ _ _ Fb). cbn [opt].
    eapply says0_ext.
    { exact (says_top (says_cons_tok "struct" eq_refl (says_cons_space (says_cons_tok f Of (says_cons_tok ":" eq_refl (says_cons_newline
        (says_inside (says_lines h c body ns (proj1 Q) (every_states body) Z N)))))))). }
    intros. cbn [dtext]. change (0 + 1)%N with 1%N.
    change (fun s => cat [margin tab 1; stext tab 1 s; newline]) with (full_line tab 1).
    cbv beta. generalize (cat (map (full_line tab 1) body)). intros z. text_eq.
  - destruct Z as (Of & Z). destruct h as [|h]; [destruct Z|]. cbn [inside] in Z. destruct H as (A & F & ns & Fb & N). rewrite (vy_at c n _ _ A eq_refl). unfold v_InterfaceDef, v_body_nodes.
    rewrite (get_str_plain n "name" _ eq_refl F), (arr_of_fld _ _ _ Fb). cbn [opt].
    assert (S : says h (flat_map (fun v => Indent :: vy_emit (set_decl c true) v ++ [Newline]) ns)
      (fun tab ind => cat (map (fun g => cat [margin tab ind; head_text tab ind (vg_name g) (vg_args g) (vg_ret g); " "; vtext tab ind (vg_body g); newline]) sigs))).
    { apply (says_flat_map _ _ _ (fun g tab ind => cat [margin tab ind; head_text tab ind (vg_name g) (vg_args g) (vg_ret g); " "; vtext tab ind (vg_body g); newline])).
      clear Fb. induction N as [|g x sigs ns H N IH]; inversion Z as [|? ? Zg Zs]; subst; constructor; [|exact (IH Zs)].
      destruct Zg as (Z0 & Z1 & Z2 & Z3).
      eapply says_ext; [exact (says_cons_indent (says_app (sig_says h (set_decl c true) g x eq_refl H Z0 Z1 Z2 Z3) (says_cons_newline says_nil)))|].
      intros. cbv beta. generalize (head_text tab ind (vg_name g) (vg_args g) (vg_ret g)). intros y. text_eq. }
    eapply says0_ext.
    { exact (says_top (says_cons_tok "interface" eq_refl (says_cons_space (says_cons_tok f Of (says_cons_tok ":" eq_refl (says_cons_newline
        (says_inside S))))))). }
    intros. cbn [dtext]. change (0 + 1)%N with 1%N. cbv beta.
    match goal with |- context [cat (map ?h sigs)] => generalize (cat (map h sigs)) end. intros z. text_eq.
  - destruct Z as (Of & Z). destruct h as [|h]; [destruct Z|]. cbn [inside] in Z. destruct H as (I & A & F & ns & Fb & N).
    assert (Ok : one_line kw) by (cbn in I; destruct I as [I|[I|[]]]; injection I as <-; reflexivity).
    assert (E : vy_emit c n = v_block_def kw c vy_emit n).
    { cbn in I. destruct I as [I|[I|[]]]; injection I as <-; exact (vy_at c n _ _ A eq_refl). }
    rewrite E. unfold v_block_def, v_indented_body.
    rewrite (get_str_plain n "name" _ eq_refl F), (arr_of_fld _ _ _ Fb). cbn [opt].
    eapply says0_ext.
    { exact (says_top (says_cons_tok kw Ok (says_cons_space (says_cons_tok f Of (says_cons_tok ":" eq_refl (says_cons_newline
        (inner_block h c body ns (proj1 Q) (every_states body) Z N))))))). }
    intros. cbn [dtext]. change (0 + 1)%N with 1%N.
    change (block_text tab 1 body) with (sjoin newline (map (line_text tab 1) body)).
    cbv beta. generalize (sjoin newline (map (line_text tab 1) body)). intros z. text_eq.
  - destruct Z as (Om & Oa). destruct H as (A & F & O). rewrite (vy_at c n _ _ A eq_refl). unfold v_Import.
    rewrite (get_str_plain n "name" _ eq_refl F). cbn [opt]. apply (@says_top h _ (fun tab _ => dtext tab (VdImport m alias))).
    destruct alias as [a|].
    + destruct O as (v & Fv & ->). rewrite (get_str_plain n "alias" _ eq_refl Fv). cbn [opt].
      eapply says_ext; [exact (says_cons_tok "import" eq_refl (says_cons_space (says_cons_tok m Om (says_cons_space (says_cons_tok "as" eq_refl (says_cons_space (says_tok a Oa)))))))|].
      intros. cbn [dtext otext]. text_eq.
    + assert (G : get_str n "alias" = None).
      { unfold get_str. rewrite (kget_plain n "alias" eq_refl). destruct O as [O|O]; rewrite O; reflexivity. }
      rewrite G. eapply says_ext; [exact (says_cons_tok "import" eq_refl (says_cons_space (says_tok m Om)))|]. intros. cbn [dtext otext]. text_eq.
  - destruct Z as (Om & Ox & Oa). destruct H as (A & Fm & F & O). rewrite (vy_at c n _ _ A eq_refl). unfold v_ImportFrom.
    rewrite (get_str_plain n "name" _ eq_refl F), Fm. cbn [opt]. apply (@says_top h _ (fun tab _ => dtext tab (VdFrom m x alias))).
    assert (S : says h (opt (oget n "alias") (fun v => opt (as_str v) (fun s => [Space; Tok "as"; Space; Tok s])))
                     (fun _ _ => otext alias (fun a => String.append " as " a))).
    { destruct alias as [a|].
      - destruct O as (v & Fv & ->). rewrite Fv. cbn [opt as_str].
        exact (says_cons_space (says_cons_tok "as" eq_refl (says_cons_space (says_tok a Oa)))).
      - destruct O as [O|O]; rewrite O; exact says_nil. }
    assert (M : says h ((if is_null match m with Some m => JStr m | None => JNull end then [Tok "."]
                       else opt (as_str match m with Some m => JStr m | None => JNull end) (fun s => [Tok s])) ++ [Space])
                     (fun _ _ => cat [match m with Some m => m | None => "." end; " "])).
    { destruct m as [m|]; [exact (says_cons_tok m Om (says_cons_space says_nil))|exact (says_cons_tok "." eq_refl (says_cons_space says_nil))]. }
    eapply says_ext.
    { tk; sp; apply says_app; [exact M|]. tk; sp; tk. exact S. }
    intros. cbn [dtext]. destruct alias; destruct m; cbn [otext]; text_eq.
Qed.

Lemma program_says : forall h c l n, quiet c -> program_node l n -> Forall (easy_def h) l ->
  says0 h (vy_emit c n) (fun tab => program_text tab l).
Proof.
  intros h c l n Q (A & D & ns & F & N) Z. rewrite (vy_at c n _ _ A eq_refl). unfold v_Module.
  assert (E : opt (oget n "doc_string") (fun v => opt (get_str v "value") (fun s => v_doc_string s ++ [Newline; Newline])) = []).
  { destruct D as [D|D]; rewrite D; reflexivity. }
  rewrite E, (arr_of_fld _ _ _ F). cbn [opt app].
  apply (says0_flat_map _ _ _ (fun d tab => cat [dtext tab d; newline; newline])).
  clear F. induction N as [|d x l ns H N IH]; inversion Z as [|? ? Zd Zl]; subst; constructor; [|exact (IH Zl)].
  eapply says0_ext; [exact (says0_app (def_says h c d x Q H Zd) (says_top (says_cons_newline (says_cons_newline says_nil))))|].
  intros. cbv beta. generalize (dtext tab d). intros y. text_eq.
Qed.
