(** A block with documented assembly has the tokens of the block, and is read as
    that block. *)
From Coq Require Import String Ascii List NArith ZArith Bool Lia.
From Verif Require Import Base Json JsonFacts Printer SolPrinter SpecPrinter SpecLiteral SpecVyText SpecSolText SpecSolRead SpecDoc SpecAsmDoc SpecYul SpecYulRead
  TextFacts LayoutFacts FlowFacts EmitFacts SolEmit PrintFacts IdealFacts VyText VyTextStmt VyNoteExec SolText SolTextStmt SolTextTop SolTextClaims
  SolReadLex SolReadToks2 SolReadToks3 SolNoteLex SolNoteExec DocFacts DocWhole AsmDoc YulText YulClaims YulRead YulReadClaims.
Import ListNotations.
Open Scope string_scope.
Open Scope list_scope.

(** Some of the indentations after a line end are followed by a comment and a
    further line end and indentation. *)
Inductive slashed : bool -> list cmd -> list cmd -> Prop :=
| sl_nil b : slashed b [] []
| sl_same b x l l' : slashed (is_newline x) l l' -> slashed b (x :: l) (x :: l')
| sl_note text l l' : slashed true (Indent :: l) (Indent :: l') ->
    slashed true (Indent :: l) (Indent :: Tok "///" :: Space :: Flow text "/// " :: Newline :: Indent :: l').

Lemma slashed_any : forall b l l', slashed false l l' -> slashed b l l'.
Proof. intros b l l' H. remember false as x eqn:E. destruct H as [x|x y l l' H|text l l' H]; [constructor|now constructor|discriminate E]. Qed.
Lemma slashed_refl : forall l b, slashed b l l.
Proof. induction l as [|x l IH]; intros b; constructor. apply IH. Qed.
Lemma slashed_pre : forall a b l l', slashed false l l' -> slashed b (a ++ l) (a ++ l').
Proof. induction a as [|x a IH]; intros b l l' H; [now apply slashed_any|]. cbn [app]. constructor. now apply IH. Qed.

Lemma note_run : forall oc text k st o st', (p_ind st <= 36)%N -> p_col st = (1 + indent_length (std_geo oc) st)%N ->
  exec (std_geo oc) (Tok "///" :: Space :: Flow text "/// " :: Newline :: k) st = Ok (o, st') ->
  exists t s o0, exec (std_geo oc) k s = Ok (o0, st') /\ p_ind s = p_ind st /\ p_col s = 1%N /\
    o = String.append (String.append "/// " t) (String "010" o0) /\ dropped (String.append "/// " t).
Proof.
  intros oc text k st o st' I C H. set (g := std_geo oc) in *.
  cbn [exec exec1] in H. apply and_print_ok in H. destruct H as (a & s1 & x & H1 & H & ->).
  assert (E1 : write_token g "///" st = Ok ("///", PState (p_row st) (p_col st + 3) (p_ind st))).
  { unfold write_token, usub. change (slen "///") with 3%N. change (g_page g) with 150%N. unfold indent_length in *. change (g_tab g) with 4%N in *.
    replace (150 <? p_col st)%N with false by (symmetry; apply N.ltb_ge; lia). unfold and_print at 1. cbn [bind].
    replace (150 <? 3)%N with false by reflexivity. replace (p_col st <=? 150)%N with true by (symmetry; apply N.leb_le; lia). cbn [bind].
    replace (150 - p_col st <? 3)%N with false by (symmetry; apply N.ltb_ge; lia). reflexivity. }
  rewrite E1 in H1. injection H1 as <- <-.
  apply and_print_ok in H. destruct H as (a & s2 & y & H2 & H & ->).
  assert (E2 : write_space g (PState (p_row st) (p_col st + 3) (p_ind st)) = Ok (" ", PState (p_row st) (p_col st + 3 + 1) (p_ind st))).
  { unfold write_space. cbn [p_col]. change (g_page g) with 150%N. unfold indent_length in *. change (g_tab g) with 4%N in *.
    replace (p_col st + 3 =? 150)%N with false by (symmetry; apply N.eqb_neq; lia). reflexivity. }
  rewrite E2 in H2. injection H2 as <- <-.
  apply and_print_ok in H. destruct H as (t & s3 & z & H3 & H & ->). destruct (write_flow_pieces _ _ _ _ _ _ _ H3) as (ls & P & O & _ & J).
  apply and_print_ok in H. destruct H as (a & s4 & o0 & H4 & H & ->). unfold write_newline in H4. injection H4 as <- <-. cbn [p_ind] in J.
  exists t, (PState (p_row s3 + 1) 1 (p_ind s3)), o0. split; [exact H|]. split; [exact J|]. split; [reflexivity|].
  split; [rewrite !app_assoc_s; reflexivity|].
  intros r ts L. rewrite app_assoc_s. apply (slash_lexes _ _ P O (String "010" "") r); [split; [now right|exact Logic.I]|reflexivity|exact L].
Qed.

Lemma exec1_ind : forall oc x st w st', exec1 (std_geo oc) x st = Ok (w, st') -> (p_ind st <= 36)%N -> (p_ind st' <= 36)%N.
Proof.
  intros oc x st w st' X L. pose proof (exec1_indent (std_geo oc) x st w st' X) as G. destruct x; rewrite G; try exact L.
  - unfold increase_indent. cbn [p_ind]. change (max_indent (std_geo oc)) with 36%N. destruct (N.leb_spec 36 (p_ind st)); lia.
  - unfold decrease_indent. cbn [p_ind]. destruct (p_ind st =? 0)%N; lia.
Qed.

Lemma exec_slashed : forall oc b l l', slashed b l l' -> forall st st' o' s', same st' st -> (p_ind st <= 36)%N -> (b = true -> p_col st = 1%N) ->
  exec (std_geo oc) l' st' = Ok (o', s') -> exists o s, exec (std_geo oc) l st = Ok (o, s) /\ same s' s /\ wv b o o'.
Proof.
  intros oc b l l' H. set (g := std_geo oc). induction H as [b|b x l l' H IH|text l l' H IH]; intros st st' o' s' S Q Z X.
  - cbn [exec] in X. injection X as <- <-. exists "", st. split; [reflexivity|]. split; [exact S|constructor].
  - cbn [exec] in X. apply and_print_ok in X. destruct X as (a & s1 & x2 & X1 & X2 & ->).
    destruct (forget_ok _ _ _ _ (forget_exec1 g x _ _ S) X1) as (s2 & Y1 & S2).
    destruct (IH s2 s1 x2 s' S2 (exec1_ind _ _ _ _ _ Y1 Q)) as (o & s & Y2 & S3 & W); [|exact X2|].
    + destruct x; try discriminate. intros _. cbn in Y1. injection Y1 as <- <-. reflexivity.
    + exists (String.append a o), s. split; [|split; [exact S3|]].
      * cbn [exec]. rewrite Y1. unfold and_print. cbn [bind]. rewrite Y2. reflexivity.
      * destruct x; try (now apply wv_app). cbn in X1. injection X1 as <- <-. constructor. exact W.
  - specialize (Z eq_refl). cbn [exec] in X. apply and_print_ok in X. destruct X as (a & s1 & x2 & X1 & X2 & ->).
    destruct S as (S1 & S2). cbn [exec1] in X1.
    assert (J : p_ind s1 = p_ind st' /\ p_col s1 = (1 + indent_length g s1)%N /\ blank a).
    { rewrite write_indent_ok in X1. injection X1 as <- <-. cbn [p_ind p_col indent_length]. split; [reflexivity|]. split; [|apply blank_spaces].
      unfold indent_length. cbn [p_ind]. rewrite S1, Z. lia. }
    destruct J as (J1 & J2 & Ba).
    destruct (note_run oc text (Indent :: l') s1 x2 s') as (t & s3 & o0 & Y & Y1 & Y2 & -> & Dr); [lia|exact J2|exact X2|].
    destruct (IH st s3 o0 s') as (o & s & Y3 & S3 & W).
    + split; congruence.
    + exact Q.
    + now intros _.
    + exact Y.
    + exists o, s. split; [exact Y3|]. split; [exact S3|]. rewrite <- app_assoc_s. apply wv_doc; [|exact W].
      intros r ts L. rewrite app_assoc_s, <- (lexes_blank a _ Ba ts). now apply Dr.
Qed.

Lemma each_slashed : forall c ns ns', Forall2 (fun x x' => x' = x \/ exists text, noted_assembly text x x') ns ns' ->
  forall k k', slashed false k k' ->
  slashed true (each (fun x => Indent :: sol_emit c x) (fun _ => [Newline]) ns ++ k) (each (fun x => Indent :: sol_emit c x) (fun _ => [Newline]) ns' ++ k').
Proof.
  intros c ns ns' H.
  assert (F : forall x x', (x' = x \/ exists text, noted_assembly text x x') -> forall k k', slashed false k k' ->
    slashed true (Indent :: sol_emit c x ++ k) (Indent :: sol_emit c x' ++ k')).
  { intros x x' [->|(text & N)] k k' K; [constructor; now apply slashed_pre|]. rewrite (noted_emit c text x x' N). cbn [app]. apply sl_note.
    constructor. now apply slashed_pre. }
  induction H as [|x x' ns ns' M H IH]; intros k k' K; [now apply slashed_any|].
  cbn [each]. destruct H as [|y y' ns ns' G H].
  - cbn [each app]. rewrite !app_nil_r. now apply F.
  - rewrite <- !app_assoc. cbn [app]. apply F; [exact M|]. constructor. cbn [is_newline]. exact (IH k k' K).
Qed.

Lemma block_slashed : forall n n', assembly_documented n n' -> slashed true (sol_emit sol_default n) (sol_emit sol_default n').
Proof.
  intros n n' (T & S & ns & ns' & A & A' & F).
  assert (T' : is_n n' "Block") by (unfold is_n, fld; rewrite S by discriminate; exact T).
  rewrite (sol_at _ n _ _ T eq_refl), (sol_at _ n' _ _ T' eq_refl). unfold s_Block. cbn [sc_single sol_default]. rewrite !block_statements.
  rewrite (get_str_plain n "nodeType" _ eq_refl T), (get_str_plain n' "nodeType" _ eq_refl T'). unfold arr_of. rewrite A, A'. cbn [opt as_array].
  change ("Block" =?s "UncheckedBlock") with false. cbn [when app]. constructor. cbn [is_newline].
  destruct F as [|x x' ns ns' M F]; [apply slashed_refl|]. cbn [not_empty when app]. rewrite <- !app_assoc.
  constructor. constructor. cbn [is_newline]. apply (each_slashed sol_default (x :: ns) (x' :: ns')); [now constructor|apply slashed_refl].
Qed.

Lemma lexes_block : forall s l, forallb mixed_spelled l = true -> lexes s (KSym "{" :: flat_map mtoks l ++ [KSym "}"]) -> reads_block s l.
Proof.
  intros s l Sp (N1 & X). apply mixed_tokens_read; [exact Sp|]. exists N1. intros f F.
  assert (M : forall a s ts, lex a s = Some ts -> forall b, a <= b -> lex b s = Some ts).
  { induction a as [|a IH]; intros u ts H [|b] Q; [discriminate H|discriminate H|lia|]. cbn [lex] in *. destruct u as [|x u]; [exact H|].
    destruct (next (String x u)) as [(t, r)|]; [|discriminate H]. destruct (lex a r) as [w|] eqn:E; [|discriminate H]. rewrite (IH r w E b) by lia. exact H. }
  exact (M _ _ _ X f F).
Qed.

Theorem documented_assembly_reads : forall oc h l n n' text, l <> [] -> mixed_block_node l n -> assembly_documented n n' ->
  Forall (mixed_easy h) l -> (N.of_nat (S h) <= 36)%N -> narrow 150 (mixed_block 4 0 l) -> forallb mixed_spelled l = true ->
  sol_print oc n' = Ok text -> reads_block text l.
Proof.
  intros oc h l n n' text Ne N A Z L Nw Sp E. pose proof (mixed_printed oc h l n Ne N Z L Nw) as P. unfold sol_print, print_text in E, P.
  destruct (exec (std_geo oc) (sol_emit sol_default n') fresh) as [[o2 st2]| | |] eqn:X2; cbn [bind] in E; try discriminate E. injection E as <-.
  destruct (exec_slashed oc _ _ _ (block_slashed n n' A) fresh fresh o2 st2 ltac:(now split) ltac:(cbn; lia) (fun _ => eq_refl) X2) as (o & st & X & _ & W).
  rewrite X in P. cbn [bind] in P. injection P as ->.
  apply lexes_block; [exact Sp|]. apply (wv_lexes true _ _ W "" _ (fun _ => eq_refl)). cbn [String.append].
  rewrite Forall_forall in Z. rewrite forallb_forall in Sp.
  assert (Q : lxs any (mixed_block 4 0 l) (KSym "{" :: flat_map mtoks l ++ [KSym "}"])).
  { unfold mixed_block. ocat. lopen; [lstep; lstep; eapply lxs_lit; [apply (lxs_lines _ mtoks); [apply newline_lexed|]|lstep; lstep; lit]|lclose].
    intros m I. change (mtoks m) with ([] ++ mtoks m). eapply lxs_lit; [apply margin_lexed|]. apply mixed_lexed; [auto|]. specialize (Z m I). destruct m; [exact Logic.I|exact (proj1 Z)]. }
  specialize (Q "" eq_refl). now rewrite append_nil_s in Q.
Qed.

(** A case: both assembly blocks of [yul_demo] get documentation. *)
Definition jnoted (text : string) (flags : list string) (l : list ystmt) : json :=
  nd "InlineAssembly" (("documentation", JStr text) :: match flags with [] => [] | _ => [("flags", JArr (map JStr flags))] end ++ [("AST", jy (YBlock l))]).
Lemma jnoted_noted : forall text flags l, noted_assembly text (jasm flags l) (jnoted text flags l).
Proof.
  intros text flags l. split; [reflexivity|]. split; [reflexivity|]. split; [destruct flags; reflexivity|].
  intros k K. unfold jnoted, jasm, nd, oget. cbn [assoc]. destruct (k =?s "nodeType"); [reflexivity|].
  destruct (k =?s "documentation") eqn:E; [apply String.eqb_eq in E; congruence|reflexivity].
Qed.

Definition first_note : string := "@solidity memory-safe-assembly */ } /* see lib/**".
Definition second_note : string := String.append "nothing {" (String.append nl "here").
Definition noted_demo : json :=
  nd "Block" [("statements", JArr (map (fun m => match m with Usual s => jc s | Asm flags l => jnoted (match l with [] => second_note | _ => first_note end) flags l end) yul_demo))].
Lemma noted_demo_documented : assembly_documented (jmixed_block yul_demo) noted_demo.
Proof.
  split; [reflexivity|]. split.
  - intros k K. unfold jmixed_block, noted_demo, nd, oget. cbn [assoc]. destruct (k =?s "nodeType"); [reflexivity|].
    destruct (k =?s "statements") eqn:E; [apply String.eqb_eq in E; congruence|reflexivity].
  - eexists. eexists. split; [reflexivity|]. split; [reflexivity|]. unfold yul_demo. cbn [map jmixed].
    do 4 (apply Forall2_cons; [first [now left|right; eexists; apply jnoted_noted]|]). apply Forall2_nil.
Qed.

Definition noted_demo_text : string := String.concat newline
  ["{";
   "    uint256 sum = 0;";
   "    /// @solidity memory-safe-assembly */ } /* see lib/**";
   "    assembly (""memory-safe"") {";
   "        function step(i) -> j {";
   "            j := add(i, 0x20)";
   "        }";
   "        function stop() {";
   "            revert(0, 0)";
   "        }";
   "        let len := mload(data)";
   "        for";
   "            {";
   "                let i := 0";
   "                let p := data";
   "            }";
   "            lt(i, len)";
   "            { i := add(i, 1) }";
   "        {";
   "            p := step(p)";
   "            if iszero(mload(p)) {";
   "                continue";
   "            }";
   "            sum := add(sum, mload(p))";
   "        }";
   "        switch sum ";
   "            case 0 {";
   "                stop()";
   "            }";
   "            default {}";
   "        sstore(""sum"", sum)";
   "    }";
   "    /// nothing { here";
   "    assembly {}";
   "    return sum;";
   "}"].
Lemma noted_demo_printed : sol_print true noted_demo = Ok noted_demo_text.
Proof. vm_compute. reflexivity. Qed.
