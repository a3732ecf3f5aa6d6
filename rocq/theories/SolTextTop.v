(** The Solidity printer writes the text of the program (members, top level). *)
From Coq Require Import String Ascii List NArith ZArith Bool Lia.
From Verif Require Import Base Json JsonFacts Printer SolPrinter SpecPrinter SpecLiteral SpecVyText SpecSolText
  TextFacts LayoutFacts EmitFacts SolEmit PrintFacts LitFacts IdealFacts VyText VyTextStmt SolText SolTextStmt.
Import ListNotations.
Open Scope string_scope.
Open Scope list_scope.

(** ** Functions and modifiers *)

Lemma call_says : forall h c m n ty k p, arguments_node ty k m n -> easy_call h m -> assoc ty sol_table = Some p ->
  (p = s_ModifierInvocation /\ k = "modifierName") \/ (p = s_InheritanceSpecifier /\ k = "baseName") ->
  says h (sol_emit c n) (fun tab ind => call_text tab ind m).
Proof.
  intros h c [e args] n ty k p (A & (v & Fv & Nv) & M) (Ze & Za) P Q. cbn [fst snd] in *.
  rewrite (sol_at c n _ _ A P). pose proof (all_xspeak e h c v Nv Ze) as Se. unfold call_text. cbn [fst snd].
  destruct args as [l|]; cbn [oeasy otext] in *.
  - destruct M as (ns & Fn & Nn). pose proof (xlist_says h c l ns Nn Za) as C.
    destruct Q as [(-> & ->)|(-> & ->)]; unfold s_ModifierInvocation, s_InheritanceSpecifier; fields;
      (eapply says_ext; [say|]; intros; cbv beta; generalize (sjoin ", " (map (xtext tab ind) l)); text_eq).
  - destruct Q as [(-> & ->)|(-> & ->)]; unfold s_ModifierInvocation, s_InheritanceSpecifier; fields;
      (eapply says_ext; [say|]; text_eq).
Qed.

Lemma override_says : forall h c o n, override_node o n -> oeasy (Forall (xeasy h)) o ->
  says h (opt (oget n "overrides") (fun v => Space :: sol_emit c v)) (fun tab ind => override_text tab ind o).
Proof.
  intros h c [l|] n N Z; cbn [override_node oeasy] in *.
  - destruct N as (v & ns & Fv & Av & Fn & Nn). fields. rewrite (sol_at c v _ _ Av eq_refl). unfold s_OverrideSpecifier. fields.
    destruct Nn as [|e m l ns Ne Nn].
    + cbn [not_empty when]. eapply says_ext; [say|text_eq].
    + pose proof (xlist_says h c (e :: l) (m :: ns) (Forall2_cons e m Ne Nn) Z) as C. cbn [not_empty when].
      eapply says_ext; [say|]. intros. cbv beta. cbn [override_text].
      generalize (sjoin ", " (map (xtext tab ind) (e :: l))). text_eq.
  - fields. exact says_nil.
Qed.

Lemma body_says : forall h s n, xmaybe cnode s n "body" -> oeasy (ceasy h) s ->
  says h (opt (oget n "body") (fun v => Space :: sol_emit D v)) (fun tab ind => otext s (fun s => String " " (ctext tab ind s))).
Proof.
  intros h [s|] n N Z; cbn [xmaybe oeasy] in *.
  - destruct N as (v & F & N). fields. exact (says_cons_space (all_cspeak s h v N Z)).
  - fields. exact says_nil.
Qed.

Lemma optional_spaced : forall h s n k d, default_text n k s d -> plain_key k = true -> one_line s -> s <> d ->
  says h (opt (get_str n k) (fun s => when (if s =?s d then false else true) [Space; Tok s])) (fun _ _ => spaced s).
Proof.
  intros h s n k d F P L Ne. unfold default_text in F. rewrite (get_str_plain n k _ P F). cbn [opt]. unfold spaced.
  destruct (s =?s "") eqn:E; [rewrite String.eqb_refl; exact says_nil|].
  replace (s =?s d) with false by (symmetry; now apply String.eqb_neq). cbn [when]. eapply says_ext; [say|text_eq].
Qed.

Lemma fun_def_says : forall h f n, fun_node f n -> easy_fun h f -> says h (sol_emit D n) (fun tab ind => fun_text tab ind f).
Proof.
  intros h [kind name ps vis virt mut ov mods rs body] n
    (A & Dc & K & Nm & (vp & Fp & Np) & V & Vi & Mu & Ov & (ms & Fm & Nms) & (vr & Fr & Nr) & Im & Bo)
    (Zk & Zn & Zp & Zv & Zm & Znp & Zo & Zl & Zms & Zr & Zb).
  cbn [sf_kind sf_name sf_params sf_visibility sf_virtual sf_mutability sf_override sf_modifiers sf_returns sf_body] in *.
  rewrite (sol_at D n _ _ A eq_refl). unfold s_FunctionDefinition, s_documentation, s_returns, s_name, tok_of. fields.
  cbn [sc_nonpayable sol_default].
  pose proof (params_say h D ps vp Np Zp) as Sp.
  pose proof (flagged_says h virt "virtual" eq_refl) as Svirt.
  pose proof (optional_spaced h mut n "stateMutability" "nonpayable" Mu eq_refl Zm Znp) as Smu.
  pose proof (override_says h D ov n Ov Zo) as So.
  pose proof (body_says h body n Bo Zb) as Sb.
  assert (Sk : says h (if smem kind ["function"; "freeFunction"] then [Tok "function"; Space] ++ [Tok name]
                       else if smem kind ["constructor"; "receive"; "fallback"] then [Tok kind] else [])
                    (fun _ _ => if kind =?s "function" then String.append "function " name else kind)).
  { cbn in Zk. repeat (destruct Zk as [<-|Zk]; [first [exact (says_tok _ eq_refl)|eapply says_ext; [cbn [smem existsb]; say|text_eq]]|]). destruct Zk. }
  assert (Sv : says h (opt (get_str n "visibility") spaced_tok) (fun _ _ => spaced vis)).
  { unfold spaced. destruct (vis =?s "") eqn:E.
    - destruct V as [V|(-> & _)]; [fields; exact says_nil|]. exfalso. cbn in Zk.
      repeat (destruct Zk as [Q|Zk]; [discriminate Q|]). destruct Zk.
    - fields. unfold spaced_tok. eapply says_ext; [say|text_eq]. }
  assert (Sm : says h (when (not_empty ms) (Space :: commas (sol_emit D) ms))
                    (fun tab ind => cat (map (fun m => String " " (call_text tab ind m)) mods))).
  { destruct Nms as [|m x mods ms N1 Nms]; [exact says_nil|]. destruct mods; [|cbn in Zl; lia]. inversion Nms; subst.
    inversion Zms; subst. cbn [not_empty when commas each].
    pose proof (call_says h D m x _ _ _ N1 H1 eq_refl (or_introl (conj eq_refl eq_refl))) as S1.
    unfold commas. cbn [each]. eapply says_ext; [say|]. intros. cbv beta. cbn [map]. generalize (call_text tab ind m). text_eq. }
  assert (Sr : says h (opt (get_array vr "parameters") (fun l => when (not_empty l) ([Space; Tok "returns"; Space] ++ sol_emit D vr)))
                    (fun tab ind => match rs with [] => "" | l => String.append " returns " (params_text tab ind l) end)).
  { pose proof (params_say h D rs vr Nr Zr) as S1. destruct Nr as (Ar & ns & Fn & Nn). fields.
    destruct Nn as [|r x rs ns N1 Nn]; [exact says_nil|]. cbn [not_empty when]. eapply says_ext; [say|].
    intros. cbv beta. generalize (params_text tab ind (r :: rs)). text_eq. }
  assert (Si : says h (when (negb match body with Some _ => true | None => false end) [Tok ";"])
                    (fun _ _ => match body with Some _ => "" | None => ";" end)).
  { destruct body; [exact says_nil|exact (says_tok ";" eq_refl)]. }
  eapply says_ext; [say|]. intros. unfold fun_text.
  cbn [sf_kind sf_name sf_params sf_visibility sf_virtual sf_mutability sf_override sf_modifiers sf_returns sf_body].
  unfold ends. destruct rs, body as [body|]; cbn [otext cat fold_right String.append]; text_eq.
Qed.

(** ** Members *)

Lemma sjoin_two : forall sep x y l, sjoin sep (x :: y :: l) = cat [x; sep; sjoin sep (y :: l)].
Proof. intros. cbn [cat fold_right]. now rewrite ?app_nil_r_s. Qed.

Lemma for_says : forall h n t global, using_node n (Some t) global -> xeasy h t ->
  says h ([Space; Tok "for"; Space] ++ sub (sol_emit D) n "typeName" ++ when (sflag n "global") [Space; Tok "global"] ++ [Tok ";"])
       (fun tab ind => for_text tab ind (Some t) global).
Proof.
  intros h n t global (A & (v & F & N) & G) Z. fields. pose proof (all_xspeak t h D v N Z) as St.
  pose proof (flagged_says h global "global" eq_refl) as Sg.
  eapply says_ext; [say|]. intros. unfold for_text. cbn [cat fold_right String.append]. now rewrite ?app_nil_r_s.
Qed.

Definition mem_semi (m : smember) : string := match m with MVar _ => ";" | _ => "" end.

Definition member_text (tab ind : N) (m : smember) : string := match m with MVar v => var_text tab ind v | _ => mtext tab ind m end.

Lemma member_semi : forall tab ind m, String.append (member_text tab ind m) (mem_semi m) = mtext tab ind m.
Proof. intros tab ind [] ; cbn [member_text mem_semi]; rewrite ?app_nil_r_s; reflexivity. Qed.

Lemma member_says : forall h m n, mnode m n -> easy_member h m -> says h (sol_emit D n) (fun tab ind => member_text tab ind m).
Proof.
  intros h [v|f|f ps virt ov body|f ps anon|f ps|f l|f l|f t|lib t g|l t g] n N Z; cbn [mnode easy_member member_text] in *.
  - now apply var_says.
  - now apply fun_def_says.
  - destruct N as (A & Dc & Nm & (v & Fv & Nv) & Vi & Ov & Bo). destruct Z as (Zf & Zp & -> & Zb). destruct body as [s|]; [|contradiction].
    cbn [override_node] in Ov. rewrite (sol_at D n _ _ A eq_refl). unfold s_ModifierDefinition, s_documentation, s_name, tok_of. fields.
    pose proof (params_say h D ps v Nv Zp) as Sp. pose proof (flagged_says h virt "virtual" eq_refl) as Svi.
    pose proof (body_says h (Some s) n Bo Zb) as Sb.
    eapply says_ext; [say|]. intros. cbv beta. cbn [mtext override_text ends otext].
    generalize (params_text tab ind ps) (ctext tab ind s) (flagged virt "virtual"). text_eq.
  - destruct N as (A & Nm & (v & Fv & Nv) & An). destruct Z as (Zf & Zp).
    rewrite (sol_at D n _ _ A eq_refl). unfold s_EventDefinition, s_name, tok_of. fields.
    pose proof (params_say h D ps v Nv Zp) as Sp. pose proof (flagged_says h anon "anonymous" eq_refl) as Svi.
    eapply says_ext; [say|]. intros. cbv beta. cbn [mtext]. generalize (params_text tab ind ps) (flagged anon "anonymous"). text_eq.
  - destruct N as (A & Nm & (v & Fv & Nv)). destruct Z as (Zf & Zp).
    rewrite (sol_at D n _ _ A eq_refl). unfold s_ErrorDefinition, s_name, tok_of. fields.
    pose proof (params_say h D ps v Nv Zp) as Sp.
    eapply says_ext; [say|]. intros. cbv beta. cbn [mtext]. generalize (params_text tab ind ps). text_eq.
  - destruct N as (A & Nm & ns & Fn & Nn). destruct Z as (Zf & Zl). destruct h as [|h]; [contradiction|]. cbn [inside] in Zl.
    rewrite (sol_at D n _ _ A eq_refl). unfold s_StructDefinition, s_name, tok_of, s_close_block. fields.
    assert (W : Forall2 (fun v n => says h (Indent :: sol_emit D n ++ [Tok ";"])
                  (fun tab ind => cat [margin tab ind; var_text tab ind v; ";"])) l ns).
    { clear A Fn. induction Nn as [|v m l ns N1 Nn IH]; constructor.
      - inversion Zl; subst. pose proof (var_says h D v m N1 H1) as S1. eapply says_ext; [say|].
        intros. cbv beta. generalize (var_text tab ind v). text_eq.
      - inversion Zl; subst. now apply IH. }
    pose proof (says_each _ h (fun x => Indent :: sol_emit D x ++ [Tok ";"]) (fun _ => [Newline])
      (fun v tab ind => cat [margin tab ind; var_text tab ind v; ";"]) newline l ns W (fun _ => says_cons_newline says_nil)) as C.
    flat. eapply says_ext; [do 2 (first [eapply says_cons_tok; [line|]|eapply says_cons_space]);
      eapply says_cons_tok; [line|]; eapply says_cons_space; eapply says_cons_tok; [line|]; eapply says_cons_newline;
      eapply says_deeper; [exact C|say]|].
    intros. cbv beta. cbn [mtext].
    match goal with |- context [sjoin newline ?l] => generalize (sjoin newline l) end. text_eq.
  - destruct N as (A & Nm & ns & Fn & Nn). destruct Z as (Zf & Ne & Zl & Zh). destruct h as [|h]; [contradiction|].
    rewrite (sol_at D n _ _ A eq_refl). unfold s_EnumDefinition, s_name, tok_of. fields.
    assert (W : Forall2 (fun x n => says h ([Newline; Indent] ++ sol_emit D n)
                  (fun tab ind => cat [newline; margin tab ind; x])) l ns).
    { clear A Fn Ne. induction Nn as [|x m l ns (A1 & N1) Nn IH]; constructor.
      - inversion Zl; subst. rewrite (sol_at D m _ _ A1 eq_refl). unfold s_Identifier, s_name, tok_of. fields. eapply says_ext; [say|text_eq].
      - inversion Zl; subst. now apply IH. }
    pose proof (says_each _ h (fun x => [Newline; Indent] ++ sol_emit D x) (fun _ => [Tok ","; Space])
      (fun x tab ind => cat [newline; margin tab ind; x]) ", " l ns W (fun _ => says_comma h)) as C.
    replace (not_empty ns) with true by (destruct Nn; [congruence|reflexivity]).
    rewrite <- ?app_assoc. cbn [when app].
    eapply says_ext; [eapply says_cons_tok; [line|]; eapply says_cons_space; eapply says_cons_tok; [line|];
      eapply says_cons_space; eapply says_cons_tok; [line|]; eapply says_deeper; [exact C|say]|].
    intros. cbv beta. cbn [mtext].
    match goal with |- context [sjoin ", " ?l] => generalize (sjoin ", " l) end. text_eq.
  - destruct N as (A & Nm & (v & Fv & Nv)). destruct Z as (Zf & Zt).
    rewrite (sol_at D n _ _ A eq_refl). unfold s_UserDefinedValueTypeDefinition, s_name, tok_of. fields.
    pose proof (all_xspeak t h D v Nv Zt) as St.
    eapply says_ext; [say|]. intros. cbv beta. cbn [mtext]. text_eq.
  - destruct N as (U & G & (v & Fv & Nv)). destruct Z as (Zl & Zt). destruct t as [t|]; [|contradiction].
    pose proof (for_says h n t g U Zt) as Sf. pose proof (all_xspeak lib h D v Nv Zl) as Sl.
    rewrite (sol_at D n _ _ (proj1 U) eq_refl). unfold s_UsingForDirective.
    rewrite (oget_fld _ _ _ Fv), (arr_gone _ _ G). cbn [opt].
    change (@nil cmd ++ ?x) with x.
    eapply says_ext; [refine (says_app (says_tok "using" eq_refl) (says_app (says_cons_space Sl) Sf))|].
    intros. cbv beta. cbn [mtext]. generalize (for_text tab ind (Some t) g). text_eq.
  - destruct N as (U & G & (ns & Fn & Nn)). destruct Z as (Ne & Zl & Zt & Zh). destruct t as [t|]; [|contradiction].
    destruct h as [|h]; [contradiction|].
    pose proof (for_says (S h) n t g U Zt) as Sf.
    rewrite (sol_at D n _ _ (proj1 U) eq_refl). unfold s_UsingForDirective.
    rewrite (oget_gone _ _ G), (arr_of_fld _ _ _ Fn). cbn [opt].
    assert (W : Forall2 (fun p n => says h (s_using_item n)
                  (fun tab ind => String.append (fst p) (otext (snd p) (fun op => String.append " as " op)))) l ns).
    { clear U Fn Ne. induction Nn as [|p m l ns N1 Nn IH]; constructor.
      - inversion Zl as [|? ? (Z1 & Z2) Zs]; subst. destruct p as [x [op|]]; [|contradiction]. cbn [fst snd using_item] in *.
        unfold using_item in N1. cbn [fst snd] in N1. destruct N1 as (F1 & w & F2 & F3). unfold s_using_item, s_name, tok_of. fields. fields. clear Sf.
        eapply says_ext; [say|text_eq].
      - inversion Zl; subst. now apply IH. }
    assert (C : says h (Newline :: Indent :: each s_using_item (fun _ => [Tok ","; Newline; Indent]) ns ++ [Newline])
      (fun tab ind => cat [newline; sjoin (String.append "," newline)
             (map (fun p => cat [margin tab ind; fst p; otext (snd p) (fun op => String.append " as " op)]) l); newline])).
    { assert (E : says h (Indent :: each s_using_item (fun _ => [Tok ","; Newline; Indent]) ns)
        (fun tab ind => sjoin (String.append "," newline)
             (map (fun p => cat [margin tab ind; fst p; otext (snd p) (fun op => String.append " as " op)]) l))).
      { clear U Fn Zl. induction W as [|p m l ns S1 W IH]; [congruence|]. destruct W as [|p2 m2 l ns S2 W].
        - cbn [each]. eapply says_ext; [exact (says_cons_indent (says_app S1 (says_app says_nil says_nil)))|].
          intros. cbv beta. cbn [map sjoin cat fold_right]. now rewrite ?app_nil_r_s.
        - inversion Nn; subst. specialize (IH H4 ltac:(discriminate)).
          change (Indent :: each s_using_item (fun _ => [Tok ","; Newline; Indent]) (m :: m2 :: ns))
            with (Indent :: s_using_item m ++ Tok "," :: Newline :: Indent :: each s_using_item (fun _ => [Tok ","; Newline; Indent]) (m2 :: ns)).
          eapply says_ext; [exact (says_cons_indent (says_app S1 (says_cons_tok "," eq_refl (says_cons_newline IH))))|].
          intros. cbv beta. cbn [map]. rewrite sjoin_two.
          match goal with |- context [sjoin ?s (?x :: map ?f l)] => generalize (sjoin s (x :: map f l)) end.
          generalize (otext (snd p) (fun op => String.append " as " op)). text_eq. }
      eapply says_ext; [refine (says_cons_newline (says_app E (says_cons_newline says_nil)))|].
      intros. cbv beta. match goal with |- context [sjoin ?s ?x] => generalize (sjoin s x) end. text_eq. }
    replace (not_empty ns) with true by (destruct Nn; [congruence|reflexivity]). cbn [when].
    match goal with |- says _ (?a ++ ?b ++ (?x ++ ?y ++ ?z) ++ ?w) _ =>
      replace (a ++ b ++ (x ++ y ++ z) ++ w) with
        (Tok "using" :: Space :: Tok "{" :: Inc :: (Newline :: Indent :: y ++ [Newline]) ++ Dec :: Indent :: Tok "}" :: w)
        by (cbn [app]; rewrite <- ?app_assoc; cbn [app]; rewrite <- ?app_assoc; reflexivity) end.
    eapply says_ext; [refine (says_cons_tok "using" eq_refl (says_cons_space (says_cons_tok "{" eq_refl
      (says_deeper C (says_cons_indent (says_cons_tok "}" eq_refl Sf))))))|].
    intros. cbv beta. cbn [mtext]. generalize (for_text tab ind (Some t) g).
    match goal with |- context [sjoin ?s ?x] => generalize (sjoin s x) end. text_eq.
Qed.

(** ** Versions *)

Definition signs : list string := ["<"; "<="; ">="; ">"; "^"].
Definition vtokens (v : string * list string) : list string := (if fst v =?s "" then [] else [fst v]) ++ snd v.

Lemma piece_digits : forall s, version_piece s -> digits_dots s = true.
Proof.
  intros s (Ne & F). unfold digits_dots. destruct s as [|c s]; [congruence|]. cbn [is_empty_str negb andb]. clear Ne.
  revert F. generalize (String c s) as t. induction t as [|d t IH]; intros F; [reflexivity|]. inversion F as [|? ? Q Fs]; subst.
  cbn [all_digits_dots]. rewrite (IH Fs), andb_true_r. apply orb_true_iff. destruct Q as [->|(L & U)]; [right; reflexivity|left].
  unfold is_digit. apply andb_true_intro. split; now apply N.leb_le.
Qed.

Lemma piece_line : forall s, version_piece s -> one_line s.
Proof.
  intros s (_ & F). apply line_of_chars. eapply Forall_impl; [|exact F]. intros c [->|(L & U)]; [cbn; discriminate|]. lia.
Qed.

Lemma digits_not_sign : forall s, digits_dots s = true -> smem s signs = false.
Proof.
  intros s H. cbn [smem signs].
  repeat match goal with |- (if ?a =?s ?b then _ else _) = _ => destruct (String.eqb_spec a b) as [->|_]; [discriminate H|] end.
  reflexivity.
Qed.

Lemma sign_not_digits : forall s, In s signs -> digits_dots s = false.
Proof. intros s I. cbn in I. repeat (destruct I as [<-|I]; [reflexivity|]). destruct I. Qed.

Lemma pieces_pragma : forall ps prev rest, Forall version_piece ps -> smem prev signs || digits_dots prev = true ->
  s_pragma prev (map JStr ps ++ rest) = map Tok ps ++ s_pragma (last ps prev) rest.
Proof.
  induction ps as [|p ps IH]; intros prev rest F P; [reflexivity|]. inversion F as [|? ? V Vs]; subst.
  cbn [map app s_pragma as_str].
  replace (smem prev ["<"; "<="; ">="; ">"; "^"] || digits_dots prev && digits_dots p) with true
    by (symmetry; rewrite (piece_digits p V), andb_true_r; exact P).
  cbn [negb]. rewrite andb_false_r. cbn [when app]. rewrite (IH p rest Vs) by (rewrite (piece_digits p V); apply orb_true_r).
  f_equal. f_equal. f_equal. destruct ps; [reflexivity|]. cbn [last]. clear. revert s. induction ps; intros s; [reflexivity|]. cbn [last]. apply IHps.
Qed.

Lemma versions_pragma : forall l prev,
  Forall (fun v => In (fst v) [""; "<"; "<="; ">="; ">"; "^"] /\ snd v <> [] /\ Forall version_piece (snd v)) l ->
  Forall (fun v => fst v <> "") (tl l) ->
  (forall front op pieces, l = front ++ [(op, pieces)] -> op <> "" \/ 2 <= length pieces) ->
  smem prev signs = false -> (digits_dots prev = true -> Forall (fun v => fst v <> "") l) ->
  s_pragma prev (flat_map (fun v => (if fst v =?s "" then [] else [JStr (fst v)]) ++ map JStr (snd v)) l) =
  flat_map (fun v => Space :: map Tok (vtokens v)) l.
Proof.
  induction l as [|[op ps] l IH]; intros prev F T L P Q; [reflexivity|].
  inversion F as [|? ? (O & Ne & V) Fs]; subst. cbn [fst snd tl] in *. cbn [flat_map fst snd].
  assert (R : forall rest q, digits_dots q = true -> rest = flat_map (fun v => (if fst v =?s "" then [] else [JStr (fst v)]) ++ map JStr (snd v)) l ->
    s_pragma q rest = flat_map (fun v => Space :: map Tok (vtokens v)) l).
  { intros rest q Dq ->. apply IH; [exact Fs| | |now apply digits_not_sign|intros _; exact T].
    - destruct l; [constructor|]. now inversion T.
    - intros front o p E. apply (L ((op, ps) :: front)). now rewrite E. }
  assert (Lp : forall q, digits_dots (last ps q) = true).
  { intros q. clear - V Ne. revert q. induction ps as [|p ps IH]; [congruence|]. inversion V; subst. intros q. destruct ps; [now apply piece_digits|].
    change (last (p :: s :: ps) q) with (last (s :: ps) q). apply IH; [discriminate|assumption]. }
  unfold vtokens at 1. cbn [fst snd]. destruct (op =?s "") eqn:E.
  - apply String.eqb_eq in E. subst op. cbn [app]. destruct ps as [|p ps]; [congruence|]. inversion V as [|? ? Vp Vs]; subst.
    assert (Np : digits_dots prev = false).
    { destruct (digits_dots prev); [|reflexivity]. specialize (Q eq_refl). inversion Q; subst. exfalso. auto. }
    cbn [map app s_pragma as_str]. change ["<"; "<="; ">="; ">"; "^"] with signs. rewrite P, Np. cbn [orb andb negb]. rewrite andb_true_r.
    match goal with |- context [not_empty ?r] => replace (not_empty r) with true end.
    2:{ destruct ps; [|reflexivity]. destruct l as [|[o2 p2] l].
        - destruct (L [] "" [p] eq_refl) as [X|X]; [congruence|cbn in X; lia].
        - inversion Fs as [|? ? (_ & N2 & _) _]; subst. cbn [map app flat_map fst snd] in *. destruct (o2 =?s ""), p2; cbn; congruence. }
    cbn [when app]. rewrite (pieces_pragma ps p _ Vs) by (rewrite (piece_digits p Vp); apply orb_true_r).
    rewrite (R _ (last ps p)); [reflexivity| |reflexivity].
    specialize (Lp p). destruct ps; exact Lp.
  - assert (So : In op signs) by (destruct O as [<-|O]; [discriminate E|exact O]).
    cbn [map app s_pragma as_str]. change ["<"; "<="; ">="; ">"; "^"] with signs. rewrite P, (sign_not_digits op So), andb_false_r. cbn [orb negb]. rewrite andb_true_r.
    replace (not_empty (map JStr ps ++ flat_map (fun v => (if fst v =?s "" then [] else [JStr (fst v)]) ++ map JStr (snd v)) l)) with true
      by (destruct ps; [congruence|reflexivity]).
    cbn [when app]. rewrite (pieces_pragma ps op _ V).
    + rewrite (R _ (last ps op)); [reflexivity|apply Lp|reflexivity].
    + apply orb_true_iff. left. cbn in So. repeat (destruct So as [<-|So]; [reflexivity|]). destruct So.
Qed.

Lemma toks_say : forall h ts, Forall one_line ts -> says h (map Tok ts) (fun _ _ => cat ts).
Proof. intros h ts F. induction F as [|t ts L F IH]; [exact says_nil|]. exact (says_cons_tok t L IH). Qed.

Lemma pragma_says : forall h l n, pnode (PSolidity l) n -> easy_pragma l -> says h (sol_emit D n) (fun tab ind => ptext tab (PSolidity l)).
Proof.
  intros h l n (A & F) (V & T & front & op & ps & E & L).
  rewrite (sol_at D n _ _ A eq_refl). unfold s_PragmaDirective. rewrite (arr_of_fld _ _ _ F). cbn [opt s_pragma as_str].
  change (smem "pragma" ["<"; "<="; ">="; ">"; "^"] || digits_dots "pragma" && digits_dots "solidity") with false.
  replace (not_empty (flat_map (fun v => (if fst v =?s "" then [] else [JStr (fst v)]) ++ map JStr (snd v)) l)) with true.
  2:{ destruct l as [|[o2 p2] l]; [destruct front; discriminate E|]. inversion V as [|? ? (_ & N2 & _) _]; subst.
      cbn [flat_map fst snd] in *. destruct (o2 =?s ""), p2; cbn; congruence. }
  rewrite versions_pragma; [|exact V|exact T| |reflexivity|discriminate].
  2:{ intros f2 o2 p2 E2. rewrite E in E2. apply app_inj_tail in E2. destruct E2 as (_ & E2). injection E2 as <- <-. exact L. }
  cbn [negb andb when app].
  assert (W : says h (flat_map (fun v => Space :: map Tok (vtokens v)) l) (fun _ _ => cat (map (fun v => String " " (cat (fst v :: snd v))) l))).
  { clear E T F A. induction V as [|[o p] l (O & N & V) Vs IH]; [exact says_nil|]. cbn [flat_map map fst snd] in *.
    assert (S1 : says h (map Tok (vtokens (o, p))) (fun _ _ => cat (vtokens (o, p)))).
    { apply toks_say. unfold vtokens. cbn [fst snd].
      assert (Fp : Forall one_line p) by (eapply Forall_impl; [|exact V]; apply piece_line).
      destruct (o =?s ""); [exact Fp|]. constructor; [|exact Fp]. cbn in O. repeat (destruct O as [<-|O]; [reflexivity|]). destruct O. }
    eapply says_ext; [exact (says_app (says_cons_space S1) IH)|]. intros. cbv beta. unfold vtokens. cbn [fst snd].
    destruct (o =?s "") eqn:Q; [apply String.eqb_eq in Q; subst o|]; cbn [app];
      change (cat (?a :: ?b)) with (String.append a (cat b)); rewrite ?app_assoc_s; reflexivity. }
  eapply says_ext; [say|]. intros. cbv beta. cbn [ptext].
  generalize (cat (map (fun v => String " " (cat (fst v :: snd v))) l)). text_eq.
Qed.

(** ** The top level *)

Lemma import_says : forall h file names alias n, pnode (PImport file names alias) n -> easy_top_level h (PImport file names alias) ->
  says h (sol_emit D n) (fun tab ind => ptext tab (PImport file names alias)).
Proof.
  intros h file names alias n (A & Ff & Fa & ns & Fn & Nn) (Zf & Zn & Za & Ze).
  rewrite (sol_at D n _ _ A eq_refl). unfold s_ImportDirective. fields.
  assert (W : Forall2 (fun p n => says h (s_alias (sol_emit D) n)
      (fun tab ind => String.append (fst p) (otext (snd p) (fun a => String.append " as " a)))) names ns).
  { clear A Fn. induction Nn as [|[x a] m names ns ((v & Fv & Nv) & Fl) Nn IH]; constructor.
    - inversion Zn as [|? ? (Zx & Zo) Zs]; subst. cbn [fst snd] in *. pose proof (all_xspeak (XId x) h D v Nv Zx) as Sx.
      unfold s_alias. fields. destruct a as [a|]; cbn [oeasy] in Zo; fields; (eapply says_ext; [say|text_eq]).
    - inversion Zn; subst. now apply IH. }
  pose proof (commas_say _ (fun tab ind p => String.append (fst p) (otext (snd p) (fun a => String.append " as " a))) _ _ _ _ W) as C.
  pose proof (quoted_line file Zf) as Q.
  assert (Sa : says h (when (negb (is_empty_str match alias with Some a => a | None => "" end)) [Space; Tok "as"; Space; Tok match alias with Some a => a | None => "" end])
                    (fun _ _ => otext alias (fun a => String.append " as " a))).
  { destruct alias as [[|c a]|]; [congruence| |exact says_nil]. cbn [is_empty_str negb when oeasy] in *. eapply says_ext; [say|text_eq]. }
  destruct Nn as [|x m names ns N1 Nn]; cbn [not_empty when].
  - clear C W. eapply says_ext; [say|]. intros. cbv beta. cbn [ptext]. unfold quoted.
    generalize (otext alias (fun a => String.append " as " a)). text_eq.
  - eapply says_ext; [say|]. intros. cbv beta. cbn [ptext]. unfold quoted.
    generalize (otext alias (fun a => String.append " as " a)).
    match goal with |- context [sjoin ", " ?l] => generalize (sjoin ", " l) end. text_eq.
Qed.

Lemma member_line : forall h m n, mnode m n -> easy_member h m ->
  says h (sol_emit D n ++ opt (get_str n "nodeType") (fun ty => when (ty =?s "VariableDeclaration") [Tok ";"])) (fun tab ind => mtext tab ind m).
Proof.
  intros h m n N Z. pose proof (member_says h m n N Z) as S1.
  assert (T : says h (opt (get_str n "nodeType") (fun ty => when (ty =?s "VariableDeclaration") [Tok ";"])) (fun _ _ => mem_semi m)).
  { assert (E : exists ty, is_n n ty /\ (ty =?s "VariableDeclaration") = match m with MVar _ => true | _ => false end).
    { destruct m; cbn [mnode] in N; unfold fun_node, var_node, using_node in N;
        try (destruct N as (A & _); eexists; split; [exact A|reflexivity]); destruct N as ((A & _) & _); eexists; (split; [exact A|reflexivity]). }
    destruct E as (ty & A & E). rewrite (get_str_plain n "nodeType" ty eq_refl A). cbn [opt]. rewrite E.
    destruct m; first [exact says_nil|exact (says_tok ";" eq_refl)]. }
  eapply says_ext; [exact (says_app S1 T)|]. intros. apply member_semi.
Qed.

Lemma contract_says : forall h abstract kind f bases l n,
  pnode (PContract abstract kind f bases l) n -> easy_top_level h (PContract abstract kind f bases l) ->
  says0 h (sol_emit D n) (fun tab => ptext tab (PContract abstract kind f bases l)).
Proof.
  intros h abstract kind f bases l n (A & Dc & Ab & K & Nm & (bs & Fb & Nb) & (ns & Fn & Nn)) (Zk & Zf & Zb & Zl).
  rewrite (sol_at D n _ _ A eq_refl). unfold s_ContractDefinition, s_documentation, s_name, tok_of. fields.
  assert (Sab : says h (when abstract [Tok "abstract"; Space]) (fun _ _ => if abstract then "abstract " else "")).
  { destruct abstract; [|exact says_nil]. cbn [when]. eapply says_ext; [say|text_eq]. }
  assert (Sb : says h (when (not_empty bs) ([Space; Tok "is"; Space] ++ commas (sol_emit D) bs))
                    (fun tab ind => match bases with [] => "" | _ => String.append " is " (sjoin ", " (map (call_text tab ind) bases)) end)).
  { assert (W : Forall2 (fun m n => says h (sol_emit D n) (fun tab ind => call_text tab ind m)) bases bs).
    { clear Fb. induction Nb as [|m x bases bs N1 Nb IH]; constructor.
      - inversion Zb; subst. exact (call_says h D m x _ _ _ N1 H1 eq_refl (or_intror (conj eq_refl eq_refl))).
      - inversion Zb; subst. now apply IH. }
    pose proof (commas_say _ call_text _ _ _ _ W) as C.
    destruct Nb as [|m x bases bs N1 Nb]; [exact says_nil|]. cbn [not_empty when]. eapply says_ext; [say|].
    intros. cbv beta. generalize (sjoin ", " (map (call_text tab ind) (m :: bases))). text_eq. }
  assert (Sn : says h (when (not_empty ns)
      ([Inc; Newline] ++
       each (fun x => Indent :: sol_emit D x ++ opt (get_str x "nodeType") (fun ty => when (ty =?s "VariableDeclaration") [Tok ";"]))
            (fun _ => [Newline; Newline]) ns ++ [Newline; Dec; Indent]))
      (fun tab ind => match l with
       | [] => ""
       | _ => cat [newline; sjoin (String.append newline newline)
                      (map (fun m => String.append (margin tab (ind + 1)) (mtext tab (ind + 1) m)) l); newline; margin tab ind]
       end)).
  { destruct Nn as [|m x l ns N1 Nn]; [exact says_nil|]. destruct Zl as [X|Zl]; [discriminate X|]. destruct h as [|h]; [contradiction|].
    cbn [inside] in Zl.
    assert (W : Forall2 (fun m n => says h (Indent :: sol_emit D n ++ opt (get_str n "nodeType") (fun ty => when (ty =?s "VariableDeclaration") [Tok ";"]))
        (fun tab ind => String.append (margin tab ind) (mtext tab ind m))) (m :: l) (x :: ns)).
    { assert (NN : Forall2 mnode (m :: l) (x :: ns)) by (constructor; assumption). revert Zl NN. generalize (m :: l) (x :: ns).
      intros ms xs Zl NN. induction NN as [|m2 x2 ms xs N2 NN IH]; constructor.
      - inversion Zl; subst. exact (says_cons_indent (member_line h m2 x2 N2 H1)).
      - inversion Zl; subst. now apply IH. }
    pose proof (says_each _ h (fun x => Indent :: sol_emit D x ++ opt (get_str x "nodeType") (fun ty => when (ty =?s "VariableDeclaration") [Tok ";"]))
      (fun _ => [Newline; Newline]) (fun m tab ind => String.append (margin tab ind) (mtext tab ind m)) (String.append newline newline)
      (m :: l) (x :: ns) W (fun _ => says_cons_newline (says_cons_newline says_nil))) as C.
    revert C. generalize (each (fun x => Indent :: sol_emit D x ++ opt (get_str x "nodeType") (fun ty => when (ty =?s "VariableDeclaration") [Tok ";"]))
      (fun _ => [Newline; Newline]) (x :: ns)). intros z C.
    cbn [not_empty when].
    replace ([Inc; Newline] ++ z ++ [Newline; Dec; Indent]) with (Inc :: (Newline :: z ++ [Newline]) ++ Dec :: [Indent])
      by (cbn [app]; now rewrite <- app_assoc).
    eapply says_ext; [exact (says_deeper (says_cons_newline (says_app C (says_cons_newline says_nil))) (says_cons_indent says_nil))|].
    intros. cbv beta. match goal with |- context [sjoin ?s ?x] => generalize (sjoin s x) end. text_eq. }
  eapply says0_ext; [apply says_top; say|]. intros. cbv beta. cbn [ptext]. change (0 + 1)%N with 1%N.
  generalize (match bases with [] => "" | _ => String.append " is " (sjoin ", " (map (call_text tab 0) bases)) end).
  generalize (if abstract then "abstract " else "" : string).
  destruct l as [|m l]; [text_eq|].
  match goal with |- context [sjoin ?s ?x] => generalize (sjoin s x) end. text_eq.
Qed.

Lemma top_says : forall h p n, pnode p n -> easy_top_level h p -> says0 h (sol_emit D n) (fun tab => ptext tab p).
Proof.
  intros h p n N Z. destruct p as [w x|l|file names alias|ab kind f bases l|m].
  - contradiction.
  - exact (says_top (pragma_says h l n N Z)).
  - exact (says_top (import_says h file names alias n N Z)).
  - exact (contract_says h ab kind f bases l n N Z).
  - destruct m; try contradiction; cbn [easy_top_level pnode] in *; exact (says_top (member_says h _ n N Z)).
Qed.

Lemma says0_each : forall h l ns, Forall2 (fun p n => says0 h (sol_emit D n) (fun tab => ptext tab p)) l ns ->
  says0 h (each (fun x => Indent :: sol_emit D x) (fun _ => [Newline; Newline]) ns)
        (fun tab => sjoin (String.append newline newline) (map (ptext tab) l)).
Proof.
  intros h l ns F. induction F as [|p n l ns S1 F IH]; [exact (says_top says_nil)|].
  assert (S2 : says0 h (Indent :: sol_emit D n) (fun tab => ptext tab p)).
  { eapply says0_ext; [exact (says0_app (a := [Indent]) (says_top (says_cons_indent says_nil)) S1)|]. reflexivity. }
  cbn [each]. destruct F as [|p2 n2 l ns S3 F].
  - eapply says0_ext; [exact (says0_app S2 (says_top says_nil))|]. intros. cbn. apply app_nil_r_s.
  - eapply says0_ext; [exact (says0_app S2 (says0_app (says_top (says_cons_newline (says_cons_newline says_nil))) IH))|].
    intros. cbv beta. cbn [map].
    rewrite sjoin_two. generalize (sjoin (String.append newline newline) (ptext tab p2 :: map (ptext tab) l)). text_eq.
Qed.

Lemma unit_says : forall h license l n, unit_node license l n -> oeasy one_line license -> Forall (easy_top_level h) l ->
  says0 h (sol_emit D n) (fun tab => unit_text tab license l).
Proof.
  intros h license l n (A & Li & ns & Fn & Nn) Zl Z.
  rewrite (sol_at D n _ _ A eq_refl). unfold s_SourceUnit. rewrite (arr_of_fld _ _ _ Fn). cbn [opt].
  assert (Sl : says h (opt (get_str n "license") (fun s => [Tok "//"; Space; Tok "SPDX-License-Identifier"; Tok ":"; Space; Tok s; Newline]))
                    (fun _ _ => otext license (fun s => cat ["// SPDX-License-Identifier: "; s; newline]))).
  { destruct license as [s|]; cbn [xmaybe oeasy] in *.
    - destruct Li as (v & Fv & ->). fields. eapply says_ext; [say|text_eq].
    - fields. exact says_nil. }
  assert (W : Forall2 (fun p n => says0 h (sol_emit D n) (fun tab => ptext tab p)) l ns).
  { clear Fn. induction Nn as [|p m l ns N1 Nn IH]; constructor.
    - inversion Z; subst. now apply top_says.
    - inversion Z; subst. now apply IH. }
  rewrite <- app_assoc.
  eapply says0_ext; [exact (says0_app (says_top Sl) (says0_app (says0_each h l ns W) (says_top (says_cons_newline (says_cons_newline says_nil)))))|].
  intros. cbv beta. unfold unit_text. generalize (otext license (fun s => cat ["// SPDX-License-Identifier: "; s; newline])).
  generalize (sjoin (String.append newline newline) (map (ptext tab) l)). text_eq.
Qed.
