(** The printer writes the text of an assembly block. *)
From Coq Require Import String Ascii List NArith ZArith Bool Lia.
From Verif Require Import Base Json JsonFacts Printer SolPrinter SpecPrinter SpecLiteral SpecVyText SpecSolText SpecYul
  TextFacts LayoutFacts EmitFacts SolEmit PrintFacts LitFacts IdealFacts VyText VyTextStmt VyTextClaims SolText SolTextStmt.
Import ListNotations.
Open Scope string_scope.
Open Scope list_scope.

Lemma yexp_ind' : forall P : yexp -> Prop,
  (forall x, P (YName x)) -> (forall s, P (YLit s)) -> (forall s, P (YStr s)) -> (forall bs, P (YHex bs)) ->
  (forall f args, Forall P args -> P (YCall f args)) -> forall e, P e.
Proof.
  intros P H1 H2 H3 H4 H5. fix IH 1. intros [x|s|s|bs|f args]; [apply H1|apply H2|apply H3|apply H4|apply H5].
  revert args. fix G 1. intros [|e l]; constructor; [apply IH|apply G].
Qed.

Lemma ystmt_ind' : forall P : ystmt -> Prop,
  (forall e, P (YExp e)) -> (forall xs e, P (YLet xs e)) -> (forall xs e, P (YSet xs e)) -> (forall l, Forall P l -> P (YBlock l)) ->
  (forall e l, Forall P l -> P (YIf e l)) -> (forall e cs, Forall (fun c => Forall P (snd c)) cs -> P (YSwitch e cs)) ->
  (forall pre e post l, Forall P pre -> Forall P post -> Forall P l -> P (YFor pre e post l)) ->
  (forall f ps rs l, Forall P l -> P (YFun f ps rs l)) -> (forall w, P (YWord w)) -> forall s, P s.
Proof.
  intros P H1 H2 H3 H4 H5 H6 H7 H8 H9. fix IH 1.
  intros [e|xs e|xs e|l|e l|e cs|pre e post l|f ps rs l|w].
  - apply H1. - apply H2. - apply H3.
  - apply H4. revert l. fix G 1. intros [|x l]; constructor; [apply IH|apply G].
  - apply H5. revert l. fix G 1. intros [|x l]; constructor; [apply IH|apply G].
  - apply H6. revert cs. fix G 1. intros [|x cs]; constructor; [|apply G].
    destruct x as (o, l). cbn [snd]. revert l. fix G2 1. intros [|x l]; constructor; [apply IH|apply G2].
  - apply H7.
    + revert pre. fix G 1. intros [|x l']; constructor; [apply IH|apply G].
    + revert post. fix G 1. intros [|x l']; constructor; [apply IH|apply G].
    + revert l. fix G 1. intros [|x l]; constructor; [apply IH|apply G].
  - apply H8. revert l. fix G 1. intros [|x l]; constructor; [apply IH|apply G].
  - apply H9.
Qed.

(** ** Expressions *)

Lemma yelements : forall (R : yexp -> json -> Prop) es ns,
  (fix go es ns := match es, ns with [], [] => True | e :: es, n :: ns => R e n /\ go es ns | _, _ => False end) es ns -> Forall2 R es ns.
Proof. intros R. induction es as [|e es IH]; intros [|n ns] H; try contradiction; constructor; [apply H|apply IH, H]. Qed.
Lemma yall : forall (R : yexp -> Prop) es, (fix all l := match l with [] => True | e :: l => R e /\ all l end) es -> Forall R es.
Proof. intros R. induction es as [|e es IH]; intros H; constructor; [apply H|apply IH, H]. Qed.

Lemma yul_name : forall h c n ty x, In ty ["YulIdentifier"; "YulTypedName"] -> is_n n ty -> fld n "name" (JStr x) -> one_line x ->
  says h (sol_emit c n) (fun _ _ => x).
Proof.
  intros h c n ty x I A F O. assert (E : assoc ty sol_table = Some s_Identifier) by (cbn in I; repeat (destruct I as [<-|I]; [reflexivity|]); destruct I).
  rewrite (sol_at c n ty _ A E). unfold s_Identifier, s_name, tok_of. fields. apply says_tok. exact O.
Qed.

Lemma yul_names : forall h c ty xs ns, In ty ["YulIdentifier"; "YulTypedName"] -> names_node ty xs ns -> Forall one_line xs ->
  says h (commas (sol_emit c) ns) (fun _ _ => sjoin ", " xs).
Proof.
  intros h c ty xs ns I N O. eapply says_ext; [apply (commas_say string (fun _ _ x => x) h (sol_emit c) xs ns)|intros; cbv beta; now rewrite map_id].
  induction N as [|x n xs ns (A & F) N IH]; inversion O; subst; constructor; [|auto]. exact (yul_name h c n ty x I A F ltac:(assumption)).
Qed.

Lemma yul_exp : forall e h c n, yenode e n -> yeeasy e -> says h (sol_emit c n) (fun _ _ => yetext e).
Proof.
  induction e as [x|s|s|bs|f args IH] using yexp_ind'; intros h c n N Z; cbn [yenode yeeasy] in N, Z.
  - destruct N as (A & F). exact (yul_name h c n "YulIdentifier" x ltac:(cbn; auto) A F Z).
  - destruct N as (A & [K|K] & F); rewrite (sol_at c n _ _ A eq_refl); unfold s_YulLiteral, tok_of; fields; cbn [smem existsb String.eqb]; apply says_tok; exact Z.
  - destruct N as (A & K & F). rewrite (sol_at c n _ _ A eq_refl). unfold s_YulLiteral. fields. cbn [yetext]. rewrite (escaped_simple s Z).
    apply says_tok. exact (quoted_line s (simple_line s Z)).
  - destruct Z.
  - destruct N as (A & (v & Fv & Av & Nv) & l & Fl & Nl). destruct Z as (O & Z).
    rewrite (sol_at c n _ _ A eq_refl). unfold s_YulFunctionCall, s_arguments. fields.
    pose proof (yul_name h c v "YulIdentifier" f ltac:(cbn; auto) Av Nv O) as S1.
    assert (S2 : says h (commas (sol_emit c) l) (fun _ _ => sjoin ", " (map yetext args))).
    { apply (commas_say yexp (fun _ _ e => yetext e)). apply yelements in Nl. apply yall in Z. clear - IH Nl Z.
      induction Nl as [|e n es ns N Ns IHl]; constructor; inversion IH; inversion Z; subst; auto. }
    eapply says_ext; [say|]. intros. cbv beta. cbn [yetext]. generalize (sjoin ", " (map yetext args)). text_eq.
Qed.

(** ** Statements *)

Definition yspeaks (s : ystmt) : Prop :=
  forall h c n, ynode s n -> yeasy h s -> says h (sol_emit c n) (fun tab ind => ytext tab ind (sc_single c) s).

Lemma ystatements : forall l ns,
  (fix go l ns := match l, ns with [], [] => True | s :: l, n :: ns => ynode s n /\ go l ns | _, _ => False end) l ns -> Forall2 ynode l ns.
Proof. induction l as [|e es IH]; intros [|n ns] H; try contradiction; constructor; [apply H|apply IH, H]. Qed.
Lemma yeasies : forall h l, (fix go l := match l with [] => True | s :: l => yeasy h s /\ go l end) l -> Forall (yeasy h) l.
Proof. intros h. induction l as [|e es IH]; intros H; constructor; [apply H|apply IH, H]. Qed.

Lemma yul_block : forall l, Forall yspeaks l -> yspeaks (YBlock l).
Proof.
  intros l K h c n (A & ns & F & N) Z. apply ystatements in N.
  assert (E : sol_emit c n = [Tok "{"] ++ s_statements (sol_emit c) (sc_single c) n ++ [Tok "}"]).
  { rewrite (sol_at c n _ _ A eq_refl). unfold s_Block. rewrite (get_str_plain n "nodeType" _ eq_refl A). reflexivity. }
  rewrite E. clear E. unfold s_statements. fields. destruct Z as [->|Z].
  { inversion N; subst. eapply says_ext; [say|]. text_eq. }
  destruct h as [|h]; [contradiction|]. cbn [inside] in Z. apply yeasies in Z.
  assert (W : Forall2 (fun s n => says h (sol_emit c n) (fun tab ind => ytext tab ind (sc_single c) s)) l ns).
  { clear A F. induction N as [|s m l ns Ns N IH]; constructor; inversion K; inversion Z; subst; [|auto]. match goal with H : yspeaks s |- _ => now apply H end. }
  assert (V : l <> [] -> says (S h) ([Tok "{"] ++ ([Inc; Newline] ++ each (fun x => Indent :: sol_emit c x) (fun _ => [Newline]) ns ++ [Dec; Newline; Indent]) ++ [Tok "}"])
    (fun tab ind => cat ["{"; newline; sjoin newline (map (fun s => String.append (margin tab (ind + 1)) (ytext tab (ind + 1) (sc_single c) s)) l);
                      newline; margin tab ind; "}"])).
  { intros _. assert (W2 : Forall2 (fun s n => says h (Indent :: sol_emit c n) (fun tab ind => String.append (margin tab ind) (ytext tab ind (sc_single c) s))) l ns)
      by (clear - W; induction W; constructor; [now apply says_cons_indent|assumption]).
    pose proof (says_each _ h (fun x => Indent :: sol_emit c x) (fun _ => [Newline])
        (fun s tab ind => String.append (margin tab ind) (ytext tab ind (sc_single c) s)) newline l ns W2 (fun _ => says_cons_newline says_nil)) as C.
    flat. eapply says_ext; [eapply says_cons_tok; [line|];
        refine (says_deeper (x := Newline :: each (fun x => Indent :: sol_emit c x) (fun _ => [Newline]) ns) _ _); [exact (says_cons_newline C)|say]|].
    intros. cbv beta. match goal with |- context [sjoin newline ?l] => generalize (sjoin newline l) end. text_eq. }
  destruct W as [|s m l ns Ws W].
  { eapply says_ext; [say|]. text_eq. }
  destruct W as [|s2 m2 l ns Ws2 W].
  - specialize (V ltac:(discriminate)). destruct (sc_single c) eqn:Q.
    + apply says_more1. eapply says_ext; [say|]. intros. cbv beta. cbn [ytext]. generalize (ytext tab ind true s). text_eq.
    + cbn [each app] in V |- *. rewrite ?app_nil_r in V. exact V.
  - exact (V ltac:(discriminate)).
Qed.

Lemma sol_unknown : forall c n ty, is_n n ty -> assoc ty sol_table = None -> sol_emit c n = flat_map (sol_emit c) (children n).
Proof.
  intros c n ty H E. rewrite sol_emit_unfold. unfold sol_printer_for. rewrite (get_str_plain n "nodeType" _ eq_refl H), E. reflexivity.
Qed.
Lemma leaf_silent : forall c v, leaf v -> sol_emit c v = [].
Proof. intros c v H. destruct v; try contradiction; reflexivity. Qed.
Lemma leaves_silent : forall c (l : list (string * json)), Forall (fun p => leaf (snd p)) l -> flat_map (sol_emit c) (map snd l) = [].
Proof. intros c l H. induction H as [|p l Hp H IH]; [reflexivity|]. cbn [map flat_map]. now rewrite (leaf_silent c (snd p) Hp). Qed.

Lemma only_here : forall c a k v b, Forall (fun p => leaf (snd p)) (a ++ b) -> flat_map (sol_emit c) (children (JObj (a ++ (k, v) :: b))) = sol_emit c v.
Proof.
  intros c a k v b H. apply Forall_app in H. destruct H as (Ha & Hb). cbn [children]. rewrite map_app. cbn [map snd].
  rewrite flat_map_app. cbn [flat_map]. rewrite (leaves_silent c a Ha), (leaves_silent c b Hb), app_nil_r. reflexivity.
Qed.

Lemma single_off : forall c, sc_single (set_single c true) = true.
Proof. reflexivity. Qed.

Lemma all_yspeak : forall s, yspeaks s.
Proof.
  induction s using ystmt_ind'; try (apply yul_block; assumption); intros h c n N Z.
  - (* YExp *) destruct N as (A & a & k & v & b & -> & Nv & L). rewrite (sol_unknown c _ _ A eq_refl), (only_here c a k v b L).
    exact (yul_exp e h c v Nv Z).
  - (* YLet *) destruct N as (A & (ns & F & N) & V). destruct Z as (O & Z). destruct e as [e|]; [|contradiction].
    destruct V as (v & Fv & Nv). rewrite (sol_at c n _ _ A eq_refl). unfold s_YulVariableDeclaration, s_yul_assign. fields.
    pose proof (yul_names h c "YulTypedName" xs ns ltac:(cbn; auto) N O) as S1. pose proof (yul_exp e h c v Nv Z) as S2.
    flat. eapply says_ext; [say|]. intros. cbv beta. cbn [ytext otext]. generalize (sjoin ", " xs). text_eq.
  - (* YSet *) destruct N as (A & (ns & F & N) & (v & Fv & Nv)). destruct Z as (O & Z).
    rewrite (sol_at c n _ _ A eq_refl). unfold s_yul_assign. fields.
    pose proof (yul_names h c "YulIdentifier" xs ns ltac:(cbn; auto) N O) as S1. pose proof (yul_exp e h c v Nv Z) as S2.
    flat. eapply says_ext; [say|]. intros. cbv beta. cbn [ytext]. generalize (sjoin ", " xs). text_eq.
  - (* YIf *) destruct N as (A & (v & Fv & Nv) & (b & Fb & Nb)). destruct Z as (Ze & Zl).
    rewrite (sol_at c n _ _ A eq_refl). unfold s_YulIf. fields.
    pose proof (yul_exp e h c v Nv Ze) as S1. pose proof (yul_block l H h c b Nb Zl) as S2.
    eapply says_ext; [say|]. intros. cbv beta.
    change (ytext tab ind (sc_single c) (YIf e l)) with (cat ["if "; yetext e; " "; ytext tab ind (sc_single c) (YBlock l)]).
    generalize (ytext tab ind (sc_single c) (YBlock l)). text_eq.
  - (* YSwitch *) destruct N as (A & (v & Fv & Nv) & (ns & Fn & Nn)). destruct Z as (Ze & Nemp & Zc). destruct h as [|h]; [contradiction|]. cbn [inside] in Zc.
    rewrite (sol_at c n _ _ A eq_refl). unfold s_YulSwitch. fields.
    pose proof (yul_exp e (S h) c v Nv Ze) as S1.
    assert (C : says h (flat_map (fun v => [Newline; Indent] ++ sol_emit c v) ns) (fun tab ind => cat (map (fun k => cat [newline; margin tab ind;
        match fst k with Some e => cat ["case "; yetext e] | None => "default" end; " "; ytext tab ind (sc_single c) (YBlock (snd k))]) cs))).
    { apply (says_flat_map _ h (fun v => [Newline; Indent] ++ sol_emit c v) (fun k tab ind => cat [newline; margin tab ind;
        match fst k with Some e => cat ["case "; yetext e] | None => "default" end; " "; ytext tab ind (sc_single c) (YBlock (snd k))])).
      clear Fn Nemp. revert ns Nn. induction cs as [|(o, l) cs IH]; intros [|m ns] Nn; try contradiction; constructor.
      - destruct Nn as ((Am & Vm & (b & Fb & Nb)) & _). destruct Zc as ((Zo & Zl) & _). cbn [fst snd] in *.
        inversion H as [|? ? Hl Hcs]; subst. pose proof (yul_block l Hl h c b Nb Zl) as S2.
        rewrite (sol_at c m _ _ Am eq_refl). unfold s_YulCase. destruct o as [e2|].
        + destruct Vm as (w & Fw & Nw). fields. pose proof (yul_exp e2 h c w Nw Zo) as S3.
          assert (Ob : exists o, w = JObj o).
          { destruct w as [| | | | |o]; try (destruct e2; cbn [yenode] in Nw; destruct Nw as (B & _); discriminate B). now exists o. }
          destruct Ob as (o & ->). flat. eapply says_ext; [say|]. intros. cbv beta. generalize (ytext tab ind (sc_single c) (YBlock l)). text_eq.
        + fields. flat. cbn [String.eqb Ascii.eqb Bool.eqb]. change (when true [Tok "default"; Space]) with [Tok "default"; Space]. cbn [app].
          eapply says_ext; [say|]. intros. cbv beta. generalize (ytext tab ind (sc_single c) (YBlock l)). text_eq.
      - inversion H; subst. apply IH; [assumption|exact (proj2 Zc)|exact (proj2 Nn)]. }
    assert (Ne : not_empty ns = true) by (destruct ns; [destruct cs; [now elim Nemp|contradiction]|reflexivity]).
    rewrite Ne. cbn [when]. flat.
    eapply says_ext; [eapply says_cons_tok; [line|]; eapply says_cons_space; eapply says_app; [exact S1|]; eapply says_cons_space;
      exact (says_deeper C says_nil)|].
    intros. cbv beta. 
    change (ytext tab ind (sc_single c) (YSwitch e cs)) with (cat ["switch "; yetext e; " "; cat (map (fun k => cat [newline; margin tab (ind + 1);
        match fst k with Some e => cat ["case "; yetext e] | None => "default" end; " "; ytext tab (ind + 1) (sc_single c) (YBlock (snd k))]) cs)]).
    match goal with |- context [cat (map ?f cs)] => generalize (cat (map f cs)) end. text_eq.
  - (* YFor *) destruct N as (A & (b1 & F1 & N1) & (v & Fv & Nv) & (b2 & F2 & N2) & (b & Fb & Nb)). destruct Z as (Zh & Zl).
    destruct h as [|h]; [contradiction|]. destruct Zh as (Zp & Ze & Zq).
    rewrite (sol_at c n _ _ A eq_refl). unfold s_YulForLoop. fields.
    pose proof (yul_block pre H h (set_single c true) b1 N1 Zp) as S1. pose proof (yul_exp e h c v Nv Ze) as S2.
    pose proof (yul_block post H0 h (set_single c true) b2 N2 Zq) as S3. pose proof (yul_block l H1 (S h) c b Nb Zl) as S4.
    rewrite single_off in S1, S3. flat.
    eassert (P1 : says h (Newline :: Indent :: sol_emit (set_single c true) b1 ++ Newline :: Indent :: sol_emit c v ++ Newline :: Indent :: sol_emit (set_single c true) b2) _) by say.
    eassert (P2 : says (S h) (Newline :: Indent :: sol_emit c b) _) by say.
    pose proof (says_deeper P1 P2) as X. repeat (progress (cbn [app] in X; rewrite <- ?app_assoc in X)).
    eapply says_ext; [eapply says_cons_tok; [line|]; exact X|].
    intros. cbv beta.
    change (ytext tab ind (sc_single c) (YFor pre e post l)) with (cat ["for"; newline; margin tab (ind + 1); ytext tab (ind + 1) true (YBlock pre); newline; margin tab (ind + 1); yetext e;
           newline; margin tab (ind + 1); ytext tab (ind + 1) true (YBlock post); newline; margin tab ind; ytext tab ind (sc_single c) (YBlock l)]).
    generalize (ytext tab (ind + 1) true (YBlock pre)), (ytext tab (ind + 1) true (YBlock post)), (ytext tab ind (sc_single c) (YBlock l)). text_eq.
  - (* YFun *) destruct N as (A & Fn & Np & Nr & (b & Fb & Nb)). destruct Z as (Of & Op & Lr & Or & Zl).
    rewrite (sol_at c n _ _ A eq_refl). unfold s_YulFunctionDefinition, s_name, tok_of. fields.
    pose proof (yul_block l H h c b Nb Zl) as S1.
    assert (S2 : says h (opt (get_array n "parameters") (commas (sol_emit c))) (fun _ _ => sjoin ", " ps)).
    { destruct Np as [(-> & G)|(ns & G & Nn)]; fields; [exact says_nil|]. exact (yul_names h c "YulTypedName" ps ns ltac:(cbn; auto) Nn Op). }
    assert (S3 : says h (opt (get_array n "returnVariables") (fun l => when (not_empty l) (let several := Nat.ltb 1 (length l) in
       [Tok "->"; Space] ++ when several [Tok "("] ++ commas (sol_emit c) l ++ when several [Tok ")"] ++ [Space])))
       (fun _ _ => match rs with [] => "" | _ => cat ["-> "; sjoin ", " rs; " "] end)).
    { destruct Nr as [(-> & G)|(ns & G & Nn)]; fields; [exact says_nil|].
      pose proof (yul_names h c "YulTypedName" rs ns ltac:(cbn; auto) Nn Or) as S4. destruct Nn as [|x m rs ns Nx Nn]; [exact says_nil|].
      destruct Nn; [|cbn [length] in Lr; lia]. cbn [not_empty when length Nat.ltb Nat.leb]. cbv zeta. cbn [when]. cbn [app] in *.
      eapply says_ext; [say|]. text_eq. }
    flat. eapply says_ext; [say|]. intros. cbv beta.
    change (ytext tab ind (sc_single c) (YFun f ps rs l)) with (cat ["function "; f; "("; sjoin ", " ps; ") ";
           match rs with [] => "" | _ => cat ["-> "; sjoin ", " rs; " "] end; ytext tab ind (sc_single c) (YBlock l)]).
    generalize (sjoin ", " ps), (match rs with [] => "" | _ => cat ["-> "; sjoin ", " rs; " "] end), (ytext tab ind (sc_single c) (YBlock l)). text_eq.
  - (* YWord *) destruct N as (ty & I & A). cbn in I. repeat (destruct I as [I|I]; [injection I as <- <-; rewrite (sol_at c n _ _ A eq_refl); apply says_tok; reflexivity|]). destruct I.
Qed.

(** ** Assembly among other statements *)

Lemma asm_says : forall h flags l n, asm_node flags l n -> easy_flags flags -> yeasy h (YBlock l) ->
  says h (sol_emit sol_default n) (fun tab ind => asm_text tab ind flags l).
Proof.
  intros h flags l n (A & G & Fl & (b & Fb & Nb)) O Z. rewrite (sol_at _ n _ _ A eq_refl). unfold s_InlineAssembly.
  rewrite (get_str_gone n "documentation" eq_refl G). fields. pose proof (all_yspeak (YBlock l) h sol_default b Nb Z) as S1. cbn [sc_single sol_default] in S1.
  destruct flags as [|x xs].
  - fields. eapply says_ext; [say|]. intros. cbv beta. unfold asm_text. generalize (ytext tab ind false (YBlock l)). text_eq.
  - fields. cbn [map not_empty when].
    assert (S2 : says h (commas (fun v => opt (as_str v) (fun s => [Tok (quoted (unencode s))])) (map JStr (x :: xs))) (fun _ _ => sjoin ", " (map (fun s => cat [""""; s; """"]) (x :: xs)))).
    { apply (commas_say string (fun _ _ s => cat [""""; s; """"])). clear - O. induction O as [|y ys Oy O IH]; constructor; [|exact IH].
      cbn [as_str opt]. rewrite (chars_ascii y Oy). eapply says_ext; [apply says_tok; exact (quoted_line y (simple_line y Oy))|]. text_eq. }
    cbn [map] in S2. flat. eapply says_ext; [say|]. intros. cbv beta. unfold asm_text. cbn [map]. generalize (ytext tab ind false (YBlock l)).
    match goal with |- context [sjoin ", " ?l] => generalize (sjoin ", " l) end. text_eq.
Qed.

Lemma mixed_says : forall h l n, l <> [] -> mixed_block_node l n -> Forall (mixed_easy h) l ->
  says (S h) (sol_emit sol_default n) (fun tab ind => mixed_block tab ind l).
Proof.
  intros h l n Ne (A & ns & F & N) Z.
  assert (E : sol_emit sol_default n = [Tok "{"] ++ s_statements (sol_emit sol_default) false n ++ [Tok "}"]).
  { rewrite (sol_at _ n _ _ A eq_refl). unfold s_Block. rewrite (get_str_plain n "nodeType" _ eq_refl A). reflexivity. }
  rewrite E, block_statements. fields.
  assert (W : Forall2 (fun m n => says h (Indent :: sol_emit sol_default n) (fun tab ind => String.append (margin tab ind) (mixed_text tab ind m))) l ns).
  { clear A F E Ne. induction N as [|m v l ns Nm N IH]; constructor; inversion Z; subst; [|auto]. apply says_cons_indent.
    destruct m as [s|flags l0]; cbn [mixed_node mixed_text mixed_easy] in *; [now apply all_cspeak|]. apply asm_says; tauto. }
  pose proof (says_each _ h (fun x => Indent :: sol_emit sol_default x) (fun _ => [Newline])
      (fun s tab ind => String.append (margin tab ind) (mixed_text tab ind s)) newline l ns W (fun _ => says_cons_newline says_nil)) as C.
  assert (Q : not_empty ns = true) by (inversion W; subst; [now elim Ne|reflexivity]). rewrite Q. cbn [when]. flat.
  eapply says_ext; [eapply says_cons_tok; [line|];
      refine (says_deeper (x := Newline :: each (fun x => Indent :: sol_emit sol_default x) (fun _ => [Newline]) ns) _ _); [exact (says_cons_newline C)|say]|].
  intros. cbv beta. unfold mixed_block. match goal with |- context [sjoin newline ?l] => generalize (sjoin newline l) end. text_eq.
Qed.

Lemma mixed_printed : forall oc h l n, l <> [] -> mixed_block_node l n -> Forall (mixed_easy h) l -> (N.of_nat (S h) <= 36)%N ->
  narrow 150 (mixed_block 4 0 l) -> sol_print oc n = Ok (mixed_block 4 0 l).
Proof.
  intros oc h l n Ne N Z L Nw. unfold sol_print.
  exact (says_print (S h) _ (fun tab => mixed_block tab 0 l) oc (says_top (mixed_says h l n Ne N Z)) L Nw).
Qed.
