(** The Solidity printer writes the text of the program (statements, members,
    top level). *)
From Coq Require Import String Ascii List NArith ZArith Bool Lia.
From Verif Require Import Base Json JsonFacts Printer SolPrinter SpecPrinter SpecLiteral SpecVyText SpecSolText
  TextFacts LayoutFacts EmitFacts SolEmit PrintFacts LitFacts IdealFacts VyText VyTextStmt SolText.
Import ListNotations.
Open Scope string_scope.
Open Scope list_scope.

Ltac text_eq := intros; cbv beta;
  repeat (progress (cbn [cat fold_right xtext otext flagged map sjoin String.append]; rewrite ?app_nil_r_s, ?app_assoc_s)); try reflexivity.

Lemma says_deeper_indent : forall h x t rest r, says h x t -> says (S h) rest r ->
  says (S h) (Inc :: Indent :: x ++ Dec :: rest)
       (fun tab ind => cat [margin tab (ind + 1)%N; t tab (ind + 1)%N; r tab ind]).
Proof.
  intros h x t rest r H R. eapply says_ext; [exact (says_deeper (x := Indent :: x) (says_cons_indent H) R)|]. text_eq.
Qed.
Arguments says_deeper_indent [h x t rest r].

Lemma flagged_says : forall h b s, one_line s -> says h (when b [Space; Tok s]) (fun _ _ => flagged b s).
Proof. intros h [|] s H; [|exact says_nil]. eapply says_ext; [cbn [when]; say|text_eq]. Qed.

(** ** Variables *)

Lemma value_says : forall h c n o, xmaybe xnode o n "value" -> oeasy (xeasy h) o ->
  says h (opt (oget n "value") (fun v => [Space; Tok "="; Space] ++ sol_emit c v))
       (fun tab ind => otext o (fun e => String.append " = " (xtext tab ind e))).
Proof.
  intros h c n [e|] N Z; cbn [xmaybe oeasy] in *.
  - destruct N as (v & F & N). fields. pose proof (all_xspeak e h c v N Z) as S1. eapply says_ext; [say|text_eq].
  - fields. exact says_nil.
Qed.

Lemma xlist_says : forall h c l ns, Forall2 xnode l ns -> Forall (xeasy h) l ->
  says h (commas (sol_emit c) ns) (fun tab ind => sjoin ", " (map (xtext tab ind) l)).
Proof.
  intros h c l ns N Z. apply (commas_say _ xtext). apply xspeaks_list; [|exact Z|exact N].
  apply Forall_forall. intros e _. apply all_xspeak.
Qed.

Lemma var_says : forall h c v n, var_node v n -> easy_var h v -> says h (sol_emit c n) (fun tab ind => var_text tab ind v).
Proof.
  intros h c [ty vis con ind ov imm loc name val] n (A & D & (t & Ft & Nt) & V & C & I & O & M & L & Nm & Va) Z.
  unfold easy_var, default_text in *. cbn [sv_type sv_visibility sv_constant sv_indexed sv_override sv_immutable sv_location sv_name sv_value] in *.
  destruct Z as (Zt & Zv & Zi & -> & Zl & Zn & Zval). cbn [override_node] in O.
  rewrite (sol_at c n _ _ A eq_refl). unfold s_VariableDeclaration, s_documentation. fields.
  pose proof (all_xspeak ty h c t Nt Zt) as St. pose proof (value_says h c n val Va Zval) as Sv.
  pose proof (spaced_says h name Zn) as Sn. pose proof (location_says h loc Zl) as Sl. cbn [opt] in Sl.
  assert (Svis : says h (when (negb ((if vis =?s "" then "internal" else vis) =?s "internal")) [Space; Tok (if vis =?s "" then "internal" else vis)])
                      (fun _ _ => spaced vis)).
  { unfold spaced. destruct (vis =?s "") eqn:E; [exact says_nil|].
    replace (vis =?s "internal") with false by (symmetry; apply String.eqb_neq; exact Zi). cbn [negb when].
    eapply says_ext; [say|text_eq]. }
  pose proof (flagged_says h con "constant" eq_refl) as Sc. pose proof (flagged_says h ind "indexed" eq_refl) as Sx.
  assert (Sm : says h (when ((if imm then "immutable" else if con then "constant" else "mutable") =?s "immutable")
                       [Space; Tok (if imm then "immutable" else if con then "constant" else "mutable")])
                    (fun _ _ => flagged imm "immutable")).
  { destruct imm; [|destruct con; exact says_nil]. exact (flagged_says h true "immutable" eq_refl). }
  cbn [app]. eapply says_ext; [say|]. intros. unfold var_text.
  cbn [sv_type sv_visibility sv_constant sv_indexed sv_override sv_immutable sv_location sv_name sv_value override_text cat fold_right].
  rewrite ?app_nil_r_s. reflexivity.
Qed.

Lemma vars_say : forall h c l ns, Forall2 var_node l ns -> Forall (easy_var h) l ->
  Forall2 (fun v n => says h (sol_emit c n) (fun tab ind => var_text tab ind v)) l ns.
Proof.
  intros h c l ns N Z. induction N as [|v n l ns Nv N IH]; constructor.
  - inversion Z; subst. now apply var_says.
  - inversion Z; subst. now apply IH.
Qed.

Lemma params_say : forall h c l n, params_node l n -> Forall (easy_var h) l ->
  says h (sol_emit c n) (fun tab ind => params_text tab ind l).
Proof.
  intros h c l n (A & ns & F & N) Z. rewrite (sol_at c n _ _ A eq_refl). unfold s_ParameterList. fields.
  pose proof (commas_say _ var_text _ _ _ _ (vars_say h c l ns N Z)) as C.
  eapply says_ext; [say|]. intros. cbv beta. unfold params_text. generalize (sjoin ", " (map (var_text tab ind) l)). text_eq.
Qed.

(** ** Statements *)

Lemma sstmt_ind' : forall P : sstmt -> Prop,
  (forall e, P (CExp e)) -> (forall l e, P (CVar l e)) -> (forall u l, Forall P l -> P (CBlock u l)) ->
  (forall e a b, P a -> OForall P b -> P (CIf e a b)) -> (forall e s, P s -> P (CWhile e s)) -> (forall s e, P s -> P (CDo s e)) ->
  (forall i e l s, OForall P i -> P s -> P (CFor i e l s)) -> (forall e, P (CReturn e)) -> (forall e, P (CEmit e)) ->
  (forall e, P (CRevert e)) -> (forall w, P (CWord w)) ->
  (forall e rs s cs, P s -> Forall (fun c => P (snd c)) cs -> P (CTry e rs s cs)) -> forall s, P s.
Proof.
  intros P H1 H2 H3 H4 H5 H6 H7 H8 H9 H10 H11 H12. fix IH 1. intros s. destruct s.
  - apply H1. - apply H2.
  - apply H3. revert l. fix G 1. intros [|x l]; constructor; [apply IH|apply G].
  - apply H4; [apply IH|]. destruct no; [apply IH|exact I].
  - apply H5; apply IH. - apply H6; apply IH.
  - apply H7; [|apply IH]. destruct init; [apply IH|exact I].
  - apply H8. - apply H9. - apply H10. - apply H11.
  - apply H12; [apply IH|]. revert clauses. fix G 1. intros [|x l]; constructor; [apply IH|apply G].
Qed.

Lemma block_statements : forall f n, s_statements f false n =
  opt (arr_of n "statements") (fun l => when (not_empty l)
    (Inc :: (Newline :: each (fun x => Indent :: f x) (fun _ => [Newline]) l) ++ [Dec; Newline; Indent])).
Proof.
  intros f n. unfold s_statements. destruct (arr_of n "statements") as [[|x [|y l]]|]; try reflexivity.
  cbn [opt not_empty when each app]. rewrite !app_nil_r. reflexivity.
Qed.

Lemma is_block_of : forall s v yes no, cnode s v -> is_block v yes no = if is_cblock s then yes else no.
Proof.
  intros s v yes no N.
  assert (T : exists ty, is_n v ty /\ (ty =?s "Block") = is_cblock s).
  { destruct s; cbn [cnode] in N.
    all: try (destruct N as (A & _); eexists; split; [exact A|]; try (destruct unchecked); reflexivity).
    destruct N as (ty & I & A). exists ty. split; [exact A|]. cbn in I.
    repeat (destruct I as [I|I]; [injection I as <- <-; reflexivity|]). destruct I. }
  destruct T as (ty & A & E). unfold is_block. rewrite (get_str_plain v "nodeType" ty eq_refl A). cbn [opt]. now rewrite E.
Qed.

Definition cspeaks (s : sstmt) : Prop :=
  forall h n, cnode s n -> ceasy h s -> says h (sol_emit sol_default n) (fun tab ind => ctext tab ind s).

Notation D := sol_default.

Lemma try_call_says : forall h c e n, try_call e n -> xeasy h e ->
  says h (sol_emit c n) (fun tab ind => String.append (xtext tab ind e) " returns").
Proof.
  intros h c e n T Z. destruct e; try contradiction. cbn [try_call xeasy] in T, Z.
  destruct T as (A & (v & Fv & Nv) & (l & Fl & Nl) & Fn & Ft). destruct Z as (L & Zf & Zl).
  pose proof (all_xspeak e h c v Nv Zf) as Sf.
  pose proof (xlist_says h c args l (xelements_Forall2 _ _ _ Nl) (xeasy_all h args Zl)) as C.
  rewrite (sol_at c n _ _ A eq_refl). unfold s_FunctionCall, s_arguments. fields. cbn [not_empty when].
  eapply says_ext; [say|]. intros. cbv beta. cbn [xtext]. rewrite tight_text by assumption.
  generalize (sjoin ", " (map (xtext tab ind) args)). text_eq.
Qed.

Definition clause_text (tab ind : N) (c : string * option (list svar) * sstmt) : string :=
  cat [fst (fst c); otext (snd (fst c)) (fun ps => String.append (params_text tab ind ps) " "); ctext tab ind (snd c); " "].

Lemma clause_says : forall h c n, cspeaks (snd c) -> one_line (fst (fst c)) -> oeasy (Forall (easy_var h)) (snd (fst c)) -> ceasy h (snd c) ->
  is_n n "TryCatchClause" -> fld n "errorName" (JStr (fst (fst c))) -> xmaybe params_node (snd (fst c)) n "parameters" ->
  (exists v, fld n "block" v /\ cnode (snd c) v) ->
  says h (sol_emit D n ++ [Space]) (fun tab ind => clause_text tab ind c).
Proof.
  intros h [[name ps] s] n S L Zp Zs A E P (v & Fv & Nv). cbn [fst snd] in *. specialize (S h v Nv Zs).
  rewrite (sol_at D n _ _ A eq_refl). unfold s_TryCatchClause. fields.
  assert (Sn : says h (when (negb (is_empty_str name)) [Tok name]) (fun _ _ => name)).
  { destruct name; [exact says_nil|]. cbn [is_empty_str negb when]. apply says_tok. exact L. }
  destruct ps as [ps|]; cbn [xmaybe oeasy] in P, Zp.
  - destruct P as (p & Fp & Np). fields. pose proof (params_say h D ps p Np Zp) as Sp. rewrite <- !app_assoc.
    eapply says_ext; [say|]. intros. unfold clause_text. cbn [fst snd otext]. generalize (params_text tab ind ps), (ctext tab ind s). text_eq.
  - fields. rewrite <- !app_assoc. eapply says_ext; [say|]. intros. unfold clause_text. cbn [fst snd otext]. generalize (ctext tab ind s). text_eq.
Qed.

(** A body on the same line if it is a block. *)
Lemma deeper_says : forall h s v rest r, cspeaks s -> cnode s v -> inside h (fun h => ceasy h s) -> says h rest r ->
  says h ([Newline; Inc; Indent] ++ sol_emit D v ++ Dec :: rest)
    (fun tab ind => cat [newline; margin tab (ind + 1); ctext tab (ind + 1) s; r tab ind]).
Proof.
  intros h s v rest r S N Z R. destruct h as [|h]; [contradiction|]. specialize (S h v N Z).
  eapply says_ext; [exact (says_cons_newline (says_deeper_indent S R))|].
  intros. cbv beta. generalize (ctext tab (ind + 1) s). text_eq.
Qed.

Lemma all_cspeak : forall s, cspeaks s.
Proof.
  induction s using sstmt_ind'; intros h n N Z; cbn [cnode ceasy] in N, Z.
  - (* CExp *)
    destruct N as (A & v & F & N). pose proof (all_xspeak e h D v N Z) as S1.
    rewrite (sol_at D n _ _ A eq_refl). unfold s_ExpressionStatement. fields. cbn [sc_semicolon sol_default when].
    eapply says_ext; [say|text_eq].
  - (* CVar *)
    destruct N as (A & (ns & F & N) & V). destruct Z as (Zl & Ze).
    rewrite (sol_at D n _ _ A eq_refl). unfold s_VariableDeclarationStatement. fields.
    assert (C : says h (s_components (sol_emit D) ns) (fun tab ind => holes (map (option_map (var_text tab ind)) l))).
    { apply (components_say _ var_node (fun tab ind e => var_text tab ind e)); [|intros; apply null_says|].
      - intros a m (B & _). exact (is_n_not_null m _ B).
      - clear A F. induction N as [|o m l ns No N IH]; constructor.
        + inversion Zl; subst. destruct o as [w|]; [|exact No]. split; [exact No|]. now apply var_says.
        + inversion Zl; subst. now apply IH. }
    assert (E : length ns = length l) by (symmetry; exact (Forall2_same_length _ _ _ _ _ N)). rewrite E.
    assert (Sv : says h (opt (oget n "initialValue") (fun v => [Space; Tok "="; Space] ++ sol_emit D v))
                      (fun tab ind => otext e (fun e => String.append " = " (xtext tab ind e)))).
    { destruct e as [e|]; cbn [xmaybe oeasy] in V, Ze.
      - destruct V as (v & Fv & Nv). fields. pose proof (all_xspeak e h D v Nv Ze) as S1. eapply says_ext; [say|text_eq].
      - fields. exact says_nil. }
    destruct (Nat.ltb 1 (length l)) eqn:Q; cbn [when]; rewrite ?app_nil_r; cbn [app]; rewrite <- ?app_assoc.
    + eapply says_ext; [say|]. intros. cbv beta. cbn [ctext]. rewrite Q. unfold paren.
      generalize (holes (map (option_map (var_text tab ind)) l)).
      generalize (otext e (fun e => String.append " = " (xtext tab ind e))). text_eq.
    + eapply says_ext; [say|]. intros. cbv beta. cbn [ctext]. rewrite Q. unfold paren.
      generalize (holes (map (option_map (var_text tab ind)) l)).
      generalize (otext e (fun e => String.append " = " (xtext tab ind e))). text_eq.
  - (* CBlock *)
    destruct N as (A & ns & F & N).
    assert (E : sol_emit D n = (if u then [Tok "unchecked"; Space] else []) ++ [Tok "{"] ++ s_statements (sol_emit D) false n ++ [Tok "}"]).
    { destruct u; rewrite (sol_at D n _ _ A eq_refl); unfold s_Block;
        rewrite (get_str_plain n "nodeType" _ eq_refl A); reflexivity. }
    rewrite E, block_statements. fields.
    assert (U : says h (if u then [Tok "unchecked"; Space] else []) (fun _ _ => if u then "unchecked " else "")).
    { destruct u; [|exact says_nil]. eapply says_ext; [say|text_eq]. }
    destruct Z as [->|Z].
    + destruct ns; [|contradiction]. cbn [not_empty when]. eapply says_ext; [say|]. intros. cbn [ctext].
      generalize (if u then "unchecked " else "" : string). text_eq.
    + destruct h as [|h]; [contradiction|]. cbn [inside] in Z.
      assert (W : Forall2 (fun s n => says h (Indent :: sol_emit D n)
                    (fun tab ind => String.append (margin tab ind) (ctext tab ind s))) l ns).
      { clear A F E. revert ns N. induction l as [|s l IH]; intros [|m ns] N; try contradiction; constructor.
        - inversion H as [|? ? K Ks]; subst. exact (says_cons_indent (K h m (proj1 N) (proj1 Z))).
        - inversion H as [|? ? K Ks]; subst. apply IH; [exact Ks|exact (proj2 Z)|exact (proj2 N)]. }
      destruct l as [|s l]; destruct ns as [|m ns]; try contradiction.
      { cbn [not_empty when]. eapply says_ext; [say|]. intros. cbn [ctext]. generalize (if u then "unchecked " else "" : string). text_eq. }
      pose proof (says_each _ h (fun x => Indent :: sol_emit D x) (fun _ => [Newline])
        (fun s tab ind => String.append (margin tab ind) (ctext tab ind s)) newline (s :: l) (m :: ns) W
        (fun _ => says_cons_newline says_nil)) as C.
      cbn [not_empty when]. 
      flat.
      eapply says_ext; [eapply says_app; [exact U|]; eapply says_cons_tok; [line|];
        refine (says_deeper (x := Newline :: each (fun x => Indent :: sol_emit D x) (fun _ => [Newline]) (m :: ns)) _ _);
        [exact (says_cons_newline C)|say]|].
      intros. cbv beta. cbn [ctext].
      match goal with |- context [sjoin newline ?l] => generalize (sjoin newline l) end.
      generalize (if u then "unchecked " else "" : string). text_eq.
  - (* CIf *)
    destruct N as (A & (v & Fv & Nv) & (y & Fy & Ny) & No). destruct Z as (Ze & Zy & Amb & Zn).
    pose proof (all_xspeak e h D v Nv Ze) as Se.
    rewrite (sol_at D n _ _ A eq_refl). unfold s_IfStatement. fields. rewrite (is_block_of _ _ _ _ Ny).
    assert (R : says h (opt (oget n "falseBody") (fun v =>
        is_block v ([Space; Tok "else"; Space] ++ sol_emit D v)
                   ([Newline; Indent; Tok "else"; Newline; Inc; Indent] ++ sol_emit D v ++ [Dec])))
      (fun tab ind => match b with
           | None => ""
           | Some no => if is_cblock no then String.append " else " (ctext tab ind no)
                        else cat [newline; margin tab ind; "else"; cat [newline; margin tab (ind + 1); ctext tab (ind + 1) no]]
           end)).
    { destruct b as [b|]; [|fields; exact says_nil]. destruct No as (w & Fw & Nw). fields. rewrite (is_block_of _ _ _ _ Nw).
      cbn [OForall] in H. destruct (is_cblock b).
      - specialize (H h w Nw Zn). eapply says_ext; [say|]. intros. cbv beta. generalize (ctext tab ind b). text_eq.
      - eapply says_ext; [|intros; reflexivity].
        change ([Newline; Indent; Tok "else"; Newline; Inc; Indent] ++ sol_emit D w ++ [Dec])
          with (Newline :: Indent :: Tok "else" :: ([Newline; Inc; Indent] ++ sol_emit D w ++ Dec :: [])).
        eapply says_ext; [eapply says_cons_newline; eapply says_cons_indent; eapply says_cons_tok; [line|];
          exact (deeper_says h b w [] _ H Nw Zn says_nil)|].
        intros. cbv beta. generalize (ctext tab (ind + 1) b). text_eq. }
    destruct (is_cblock s) eqn:B.
    + specialize (IHs h y Ny Zy). eapply says_ext; [say|]. intros. cbv beta. cbn [ctext]. rewrite B.
      match goal with |- context [match b with None => "" | Some no => @?f no end] => generalize (match b with None => "" | Some no => f no end) end.
      generalize (ctext tab ind s). text_eq.
    + assert (T : says h (Newline :: Inc :: Indent :: sol_emit D y ++ Dec :: opt (oget n "falseBody") (fun v =>
        is_block v ([Space; Tok "else"; Space] ++ sol_emit D v)
                   ([Newline; Indent; Tok "else"; Newline; Inc; Indent] ++ sol_emit D v ++ [Dec]))) _)
        by exact (deeper_says h s y _ _ IHs Ny Zy R).
      cbn [app]. rewrite <- app_assoc. cbn [app].
      eapply says_ext; [eapply says_cons_tok; [line|]; eapply says_cons_tok; [line|]; eapply says_app; [exact Se|];
        eapply says_cons_tok; [line|]; eapply says_cons_space; exact T|].
      intros. cbv beta. cbn [ctext]. rewrite B.
      assert (X : forall d : string, match b with
          | Some _ => if open_if s then cat ["{"; d; newline; margin tab ind; "}"] else d
          | None => d
          end = d) by (intros d; destruct b; [|reflexivity]; destruct Amb as [Q|[Q|Q]]; [congruence|now rewrite Q|congruence]).
      rewrite X.
      match goal with |- context [match b with None => "" | Some no => @?f no end] => generalize (match b with None => "" | Some no => f no end) end.
      generalize (ctext tab (ind + 1) s). text_eq.
  - (* CWhile *)
    destruct N as (A & (v & Fv & Nv) & (w & Fw & Nw)). destruct Z as (Ze & Zs).
    pose proof (all_xspeak e h D v Nv Ze) as Se. specialize (IHs h w Nw Zs).
    rewrite (sol_at D n _ _ A eq_refl). unfold s_WhileStatement. fields. rewrite <- ?app_assoc.
    eapply says_ext; [say|]. intros. cbv beta. cbn [ctext]. generalize (ctext tab ind s). text_eq.
  - (* CDo *)
    destruct N as (A & (v & Fv & Nv) & (w & Fw & Nw)). destruct Z as (Ze & Zs).
    pose proof (all_xspeak e h D v Nv Ze) as Se. specialize (IHs h w Nw Zs).
    rewrite (sol_at D n _ _ A eq_refl). unfold s_DoWhileStatement. fields. rewrite <- ?app_assoc.
    eapply says_ext; [say|]. intros. cbv beta. cbn [ctext]. generalize (ctext tab ind s). text_eq.
  - (* CFor *)
    destruct N as (A & Ni & Nc & Nl & (w & Fw & Nw)). destruct Z as (Zi & Zc & Zl & Zs).
    destruct i as [i|]; [|contradiction]. destruct e as [e|]; [|contradiction].
    destruct Ni as (vi & Fi & Ni). destruct Nc as (vc & Fc & Nc).
    specialize (H h vi Ni Zi). pose proof (all_xspeak e h D vc Nc Zc) as Se.
    rewrite (sol_at D n _ _ A eq_refl). unfold s_ForStatement. fields. rewrite (is_block_of _ _ _ _ Nw).
    assert (Sl : says h (opt (oget n "loopExpression") (fun v => Space :: sol_emit (set_semicolon D false) v))
                      (fun tab ind => otext l (fun e => String " " (xtext tab ind e)))).
    { destruct l as [l|]; cbn [oeasy] in Zl.
      - destruct Nl as (vl & x & Fl & Al & Fx & Nx). fields. rewrite (sol_at _ vl _ _ Al eq_refl). unfold s_ExpressionStatement.
        fields. cbn [sc_semicolon set_semicolon when]. rewrite app_nil_r.
        pose proof (all_xspeak l h (set_semicolon D false) x Nx Zl) as Sx. eapply says_ext; [say|text_eq].
      - fields. exact says_nil. }
    destruct (is_cblock s) eqn:B.
    + specialize (IHs h w Nw Zs). eapply says_ext; [say|]. intros. cbv beta. cbn [ctext]. rewrite B.
      cbn [otext]. generalize (ctext tab ind i) (ctext tab ind s).
      generalize (match l with Some e => String " " (xtext tab ind e) | None => "" end). text_eq.
    + pose proof (deeper_says h s w [] _ IHs Nw Zs says_nil) as T.
      eapply says_ext; [eapply says_cons_tok; [line|]; eapply says_app; [exact H|]; cbn [app]; eapply says_cons_space;
        rewrite <- app_assoc; eapply says_app; [exact Se|]; eapply says_cons_tok; [line|]; eapply says_app; [exact Sl|];
        eapply says_cons_tok; [line|]; exact T|].
      intros. cbv beta. cbn [ctext]. rewrite B.
      cbn [otext]. generalize (ctext tab ind i) (ctext tab (ind + 1) s).
      generalize (match l with Some e => String " " (xtext tab ind e) | None => "" end). text_eq.
  - (* CReturn *)
    destruct N as (A & N). rewrite (sol_at D n _ _ A eq_refl). unfold s_Return. destruct e as [e|]; cbn [xmaybe oeasy] in N, Z.
    + destruct N as (v & F & N). pose proof (all_xspeak e h D v N Z) as Se. fields. eapply says_ext; [say|text_eq].
    + fields. eapply says_ext; [say|text_eq].
  - (* CEmit *)
    destruct N as (A & v & F & N). pose proof (all_xspeak e h D v N Z) as Se.
    rewrite (sol_at D n _ _ A eq_refl). unfold s_EmitStatement. fields. eapply says_ext; [say|text_eq].
  - (* CRevert *)
    destruct N as (A & v & F & N). pose proof (all_xspeak e h D v N Z) as Se.
    rewrite (sol_at D n _ _ A eq_refl). unfold s_RevertStatement. fields. eapply says_ext; [say|text_eq].
  - (* CWord *)
    destruct N as (ty & I & A). cbn in I.
    repeat (destruct I as [I|I];
      [injection I as <- <-; rewrite (sol_at D n _ _ A eq_refl); unfold s_keyword_semi; eapply says_ext; [say|text_eq]|]). destruct I.
  - (* CTry *)
    destruct N as (A & (v & Fv & Nv) & b & ns & Fc & (Ab & Eb & Pb & Bb) & Ncs). destruct Z as (Ze & Zr & Zrs & Zs & Zcs).
    pose proof (try_call_says h D e v Nv Ze) as Se.
    assert (Sb : says h (sol_emit D b ++ [Space]) (fun tab ind => clause_text tab ind ("", Some rs, s))).
    { apply (clause_says h ("", Some rs, s)); cbn [fst snd xmaybe oeasy]; try assumption; [reflexivity|]. destruct rs; [congruence|exact Pb]. }
    assert (Scs : Forall2 (fun c n => says h (sol_emit D n ++ [Space]) (fun tab ind => clause_text tab ind c)) cs ns).
    { clear A Fc Sb. revert ns Ncs. induction cs as [|c cs IH]; intros [|m ns] Ncs; try contradiction; constructor.
      - inversion H as [|? ? K Ks]; subst. destruct Ncs as ((A & E & P & Bl) & _). destruct Zcs as ((Z1 & Z2 & Z3) & _).
        now apply clause_says.
      - inversion H as [|? ? K Ks]; subst. apply IH; [exact Ks|exact (proj2 Zcs)|exact (proj2 Ncs)]. }
    rewrite (sol_at D n _ _ A eq_refl). unfold s_TryStatement. fields.
    pose proof (says_each _ h (fun x => sol_emit D x ++ [Space]) (fun _ => [Tok "catch"; Space])
      (fun c tab ind => clause_text tab ind c) "catch " (("", Some rs, s) :: cs) (b :: ns)
      (Forall2_cons ("", Some rs, s) b Sb Scs) (fun _ => says_cons_tok "catch" eq_refl (says_cons_space says_nil))) as C.
    rewrite <- ?app_assoc. eapply says_ext; [say|].
    intros. cbv beta. cbn [ctext]. destruct rs as [|r0 rs]; [congruence|]. clear.
    assert (J : forall c l, sjoin "catch " (map (fun c => clause_text tab ind c) (c :: l)) =
      String.append (clause_text tab ind c) (cat (map (fun c => String.append "catch " (clause_text tab ind c)) l))).
    { intros c l. revert c. induction l as [|d l IH]; intros c; [cbn; now rewrite app_nil_r_s|].
      change (sjoin "catch " (map (fun c => clause_text tab ind c) (c :: d :: l)))
        with (String.append (clause_text tab ind c) (String.append "catch " (sjoin "catch " (map (fun c => clause_text tab ind c) (d :: l))))).
      rewrite IH. cbn [map cat fold_right]. now rewrite !app_assoc_s. }
    rewrite J. unfold clause_text at 1. cbn [fst snd otext].
    replace (map (fun c => String.append "catch " (clause_text tab ind c)) cs)
      with (map (fun c => cat ["catch "; fst (fst c); otext (snd (fst c)) (fun ps => String.append (params_text tab ind ps) " ");
                                   ctext tab ind (snd c); " "]) cs) by (apply map_ext; reflexivity).
    match goal with |- context [cat (map ?f cs)] => generalize (cat (map f cs)) end.
    generalize (params_text tab ind (r0 :: rs)) (ctext tab ind s). text_eq.
Qed.
