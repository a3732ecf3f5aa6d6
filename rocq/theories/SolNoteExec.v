(** Printing with comments on lines of their own: the text without them, with
    lines added. *)
From Coq Require Import String Ascii List NArith ZArith Bool Lia.
From Verif Require Import Base Json JsonFacts Printer SolPrinter SpecPrinter SpecLiteral SpecVyText SpecSolText SpecSolRead SpecSolEdit SpecSolNote
  TextFacts LayoutFacts FlowFacts EmitFacts SolEmit PrintFacts LitFacts PathFacts IdealFacts VyText VyTextStmt SolText SolTextStmt SolReadLex SolNoteLex.
From Verif Require SpecVyRead VyReadNote VyNoteExec OpFacts.
Import ListNotations.
Open Scope string_scope.
Open Scope list_scope.

(** ** Lines *)

Lemma marked_ignorable : forall s, one_line s -> marked "//" s -> ignorable s = true.
Proof.
  assert (N : forall s, one_line s -> SpecVyRead.every not_nl s = true).
  { induction s as [|c s IH]; [reflexivity|]. unfold one_line, not_nl in *. cbn [SpecVyRead.every str_contains]. rewrite (Ascii.eqb_sym "010" c). destruct (Ascii.eqb c "010") eqn:E.
    - discriminate.
    - intros H. cbn [negb andb]. apply IH. exact H. }
  intros s O M. unfold ignorable. change every with SpecVyRead.every. change span with SpecVyRead.span. rewrite (N s O). cbn [andb]. specialize (N s O).
  assert (B : forall w r, blank w -> SpecVyRead.every not_nl w = true -> snd (SpecVyRead.span (Ascii.eqb " ") (String.append w r)) = snd (SpecVyRead.span (Ascii.eqb " ") r)).
  { clear. induction w as [|c w IH]; intros r H E; [reflexivity|]. cbn [blank] in H. destruct H as ([-> | ->] & H).
    - cbn [SpecVyRead.every] in E. apply andb_true_iff in E. destruct E as (_ & E). cbn [String.append SpecVyRead.span Ascii.eqb Bool.eqb].
      rewrite <- (IH r H E). destruct (SpecVyRead.span (Ascii.eqb " ") (String.append w r)). reflexivity.
    - discriminate E. }
  destruct M as [M|(w & r & M & ->)].
  - rewrite <- (append_nil_s s). rewrite (B s "" M N). reflexivity.
  - rewrite B; [reflexivity|exact M|].
    clear - N. induction w as [|c w IH]; [reflexivity|]. cbn [String.append SpecVyRead.every] in *. apply andb_true_iff in N. destruct N as (E & N).
    now rewrite E, (IH N).
Qed.

Lemma blank_app : forall a b, blank a -> blank b -> blank (String.append a b).
Proof. induction a as [|c a IH]; intros b Ha Hb; [exact Hb|]. destruct Ha as (H & Ha). split; [exact H|]. now apply IH. Qed.

Lemma marked_app : forall m s, blank m -> marked "//" s -> marked "//" (String.append m s).
Proof.
  intros m s B [H|(w & r & H & ->)].
  - left. now apply blank_app.
  - right. exists (String.append m w), r. split; [now apply blank_app|]. now rewrite append_assoc.
Qed.

Lemma first_line : forall s, one_line s \/ exists a b, s = String.append a (String "010" b) /\ one_line a.
Proof.
  induction s as [|c s IH]; [left; reflexivity|]. destruct (Ascii.eqb "010" c) eqn:E.
  - right. apply Ascii.eqb_eq in E. subst c. exists "", s. split; reflexivity.
  - destruct IH as [H|(a & b & -> & H)].
    + left. unfold one_line in *. cbn [str_contains]. now rewrite E.
    + right. exists (String c a), b. split; [reflexivity|]. unfold one_line in *. cbn [str_contains]. now rewrite E.
Qed.

Lemma adds_text : forall s A B o m, adds s (String.append A (String "010" B)) -> Forall (marked "//") (lines o) ->
  blank m -> one_line m ->
  adds s (String.append A (String "010" (String.append m (String.append o (String "010" B))))).
Proof.
  intros s A B o. remember (String.length o) as n eqn:L. revert A B o L. induction n as [n IH] using lt_wf_ind.
  intros A B o -> m H F Bm Om. destruct (first_line o) as [O|(a & b & -> & O)].
  - unfold lines in F. rewrite split_one in F by exact O. inversion F; subst. rewrite <- append_assoc.
    apply adds_line; [exact H|]. apply marked_ignorable; [now apply one_line_append|now apply marked_app].
  - unfold lines in F. rewrite split_app, (split_one _ _ O) in F. cbn [split_on Ascii.eqb Bool.eqb] in F.
    assert (F2 : Forall (marked "//") (a :: split_on "010" b)).
    { revert F. cbn. rewrite append_nil_s. intros F. exact F. }
    inversion F2 as [|? ? M1 M2]; subst.
    rewrite append_assoc. cbn [String.append]. rewrite <- append_assoc.
    apply adds_line; [|apply marked_ignorable; [now apply one_line_append|now apply marked_app]].
    apply (IH (String.length b)) with (m := ""); try reflexivity; [|exact H|exact M2].
    clear. induction a as [|c a IHa]; cbn [String.append String.length]; lia.
Qed.

(** ** Requests with comments among them *)

(** What a comment asks for. *)
Definition note (h : nat) (s : list cmd) : Prop := exists n, fair_comment h n /\ s = sol_emit sol_default n.

(** At the start of a line after the request. *)
Definition starts (b : bool) (x : cmd) : bool := match x with Newline => true | Inc | Dec => b | _ => false end.
Definition after (b : bool) (l : list cmd) : bool := fold_left starts l b.

(** The line ends here ([e]: it does behind the requests). *)
Fixpoint ends (e : bool) (l : list cmd) : bool :=
  match l with [] => e | Newline :: _ => true | Dec :: l => ends e l | _ => false end.

(** The same requests with comments on lines of their own, some with an empty
    line beside them. *)
Inductive commented (h : nat) : bool -> bool -> list cmd -> list cmd -> Prop :=
| cm_nil : forall b e, commented h b e [] []
| cm_cons : forall b e x l l', commented h (starts b x) e l l' -> commented h b e (x :: l) (x :: l')
| cm_line : forall e s l l', note h s -> commented h true e l l' -> commented h true e l (Indent :: s ++ Newline :: l')
| cm_gap : forall e s l l', note h s -> commented h true e l l' -> commented h true e l (Indent :: s ++ Newline :: Newline :: l')
| cm_last : forall b e s l l', note h s -> ends e l = true -> commented h false e l l' ->
    commented h b e l (Newline :: Indent :: s ++ l')
| cm_last_gap : forall b e s l l', note h s -> ends e l = true -> commented h false e l l' ->
    commented h b e l (Newline :: Newline :: Indent :: s ++ l').

Lemma note_exec : forall oc h s st o st', note h s ->
  (p_ind st <= N.of_nat h)%N -> (N.of_nat h <= 36)%N -> (p_col st = indent_length (std_geo oc) st + 1)%N ->
  exec (std_geo oc) s st = Ok (o, st') -> Forall (marked "//") (lines o) /\ p_ind st' = p_ind st.
Proof.
  intros oc h s st o st' (n & (A & V) & ->) I H36 C X.
  assert (R : (p_col st + slen "//" < g_page (std_geo oc))%N).
  { apply std_room; [change (max_indent (std_geo oc)) with 36%N; lia|lia|vm_compute; discriminate]. }
  assert (Ty : oget n "nodeType" = Some (JStr "Comment")).
  { unfold is_comment in A. destruct (oget n "nodeType") as [[]|]; try discriminate A. apply String.eqb_eq in A. now subst. }
  destruct V as [V|(T & v & s & Fv & Nv & Zv & W)].
  - assert (E : sol_emit sol_default n = s_Comment sol_default sol_emit n) by exact (sol_comment_emit _ _ Ty).
    assert (K : p_ind st' = p_ind st).
    { rewrite E in X. unfold s_Comment in X. rewrite (sub_gone _ _ _ V) in X.
      refine (balanced_indent _ _ _ _ _ _ _ X).
      - intros k. destruct (get_str n "text") as [t|]; [|reflexivity]. cbn [opt]. destruct (negb (is_empty_str t)); reflexivity.
      - change (max_indent (std_geo oc)) with 36%N. destruct (get_str n "text") as [t|]; cbn [opt app climb]; [destruct (negb (is_empty_str t)); cbn [when app climb]|]; lia. }
    split; [|exact K]. destruct (get_str n "text") as [t|] eqn:Q.
    + apply OpFacts.get_str_Some in Q; [|reflexivity]. exact (sol_text_comment_lines _ _ n t st o st' Ty Q V R X).
    + rewrite E in X. unfold s_Comment in X. rewrite Q, (sub_gone _ _ _ V) in X. cbn [opt app] in X.
      destruct (flat_exec (std_geo oc) [Tok "//"; Space] st) as (s' & F); [repeat constructor|cbn [width fold_right]; change (slen "//") with 2%N in *; lia|].
      rewrite F in X. injection X as <- _. cbn. constructor; [|constructor]. apply (marked_line "//" " ").
  - pose proof (all_cspeak s 0 v Nv Zv) as S.
    assert (E : sol_emit sol_default n = Tok "//" :: Space :: sol_emit sol_default v).
    { rewrite (sol_comment_emit _ _ Ty). unfold s_Comment. fields. destruct T as [T|T]; fields; reflexivity. }
    assert (S2 : says 0 (sol_emit sol_default n) (fun tab ind => String.append "// " (ctext tab ind s))).
    { rewrite E. eapply says_ext; [exact (says_cons_tok "//" eq_refl (says_cons_space S))|]. reflexivity. }
    destruct S2 as (P & B & T1 & Cl & Id). destruct (W (p_ind st)) as (O1 & L1).
    pose proof (Cl 0%N) as Cl0. specialize (Cl (p_ind st)). change (max_indent (std_geo oc)) with 36%N in *.
    destruct (exec_ideal (std_geo oc) (sol_emit sol_default n) st (margin 4 (p_ind st)) P T1) as (s' & F).
    + change (max_indent (std_geo oc)) with 36%N. lia.
    + apply VyNoteExec.margin_blank.
    + rewrite slen_margin, C. unfold indent_length. cbn [g_tab std_geo]. lia.
    + rewrite Id. cbn [g_tab g_page std_geo]. unfold narrow, lines. rewrite split_one.
      * constructor; [|constructor]. rewrite !slen_app, slen_margin. change (slen "// ") with 3%N. lia.
      * apply one_line_append; [apply VyNoteExec.margin_blank|]. apply one_line_append; [reflexivity|exact O1].
    + rewrite F in X. injection X as <- <-. split.
      * rewrite Id. cbn [g_tab std_geo]. unfold lines. rewrite split_one; [|apply one_line_append; [reflexivity|exact O1]].
        constructor; [|constructor]. apply (marked_line "//").
      * refine (balanced_indent _ _ _ _ _ _ _ F); [exact B|]. change (max_indent (std_geo oc)) with 36%N. lia.
Qed.

Lemma climb_start : forall ind l h, (climb ind l <= h)%N -> (ind <= h)%N.
Proof. intros ind l h C. pose proof (climb_ge l ind). lia. Qed.

Lemma climb_exec1 : forall oc x l st w st' h, exec1 (std_geo oc) x st = Ok (w, st') -> (climb (p_ind st) (x :: l) <= N.of_nat h)%N ->
  (N.of_nat h <= 36)%N -> (climb (p_ind st') l <= N.of_nat h)%N.
Proof.
  intros oc x l st w st' h X C H36. pose proof (climb_cons x l (p_ind st)) as CC.
  assert (K : p_ind st' = match x with Inc => (p_ind st + 1)%N | Dec => (p_ind st - 1)%N | _ => p_ind st end).
  { assert (D : p_ind (decrease_indent st) = (p_ind st - 1)%N).
    { unfold decrease_indent. cbn [p_ind]. destruct (p_ind st =? 0)%N eqn:Z; [apply N.eqb_eq in Z; lia|reflexivity]. }
    assert (U : x = Inc -> p_ind (increase_indent (std_geo oc) st) = (p_ind st + 1)%N).
    { intros ->. unfold increase_indent. cbn [p_ind]. change (max_indent (std_geo oc)) with 36%N.
      pose proof (climb_ge l (p_ind st + 1)). cbn [climb] in C. replace (36 <=? p_ind st)%N with false; [reflexivity|]. symmetry. apply N.leb_gt. lia. }
    pose proof (exec1_indent (std_geo oc) x st w st' X) as G. destruct x; rewrite G; auto. }
  rewrite K. destruct x; cbn [climb] in C; cbn [climb] in CC; lia.
Qed.

(** A comment at the start of a line, with its indentation. *)
Lemma open_exec : forall oc h s l' st o st', note h s -> (p_ind st <= N.of_nat h)%N -> (N.of_nat h <= 36)%N -> (p_col st = 1)%N ->
  exec (std_geo oc) (Indent :: s ++ l') st = Ok (o, st') ->
  exists os s2 o3, Forall (marked "//") (lines os) /\ p_ind s2 = p_ind st /\ exec (std_geo oc) l' s2 = Ok (o3, st') /\
    o = String.append (margin 4 (p_ind st)) (String.append os o3).
Proof.
  intros oc h s l' st o st' S I H36 W X. cbn [exec] in X.
  apply and_print_ok in X. destruct X as (w & s1 & o1 & X1 & X & ->). cbn [exec1] in X1. rewrite write_indent_ok in X1. injection X1 as <- <-.
  apply VyNoteExec.exec_app_ok in X. destruct X as (os & s2 & o2 & X2 & X & ->).
  match type of X2 with exec _ _ ?s0 = _ => assert (FK : Forall (marked "//") (lines os) /\ p_ind s2 = p_ind s0)
    by (refine (note_exec oc h s s0 os s2 S I H36 _ X2); cbn [p_col]; unfold indent_length; cbn [p_ind]; lia) end.
  destruct FK as (F & K). exists os, s2, o2. rewrite <- margin_indent. now repeat split.
Qed.

(** The same, with the line end behind it. *)
Lemma line_exec : forall oc h s l' st o st', note h s -> (p_ind st <= N.of_nat h)%N -> (N.of_nat h <= 36)%N -> (p_col st = 1)%N ->
  exec (std_geo oc) (Indent :: s ++ Newline :: l') st = Ok (o, st') ->
  exists os s2 o3, Forall (marked "//") (lines os) /\ (p_ind s2 = p_ind st /\ p_col s2 = 1%N) /\ exec (std_geo oc) l' s2 = Ok (o3, st') /\
    o = String.append (margin 4 (p_ind st)) (String.append os (String "010" o3)).
Proof.
  intros oc h s l' st o st' S I H36 W X. destruct (open_exec oc h s _ st o st' S I H36 W X) as (os & s2 & o3 & F & K & X2 & ->).
  cbn [exec] in X2. apply and_print_ok in X2. destruct X2 as (w & s3 & o4 & X3 & X2 & ->). cbn [exec1 write_newline] in X3. injection X3 as <- <-.
  exists os, (PState (p_row s2 + 1) 1 (p_ind s2)), o4. cbn [p_ind p_col]. repeat split; assumption.
Qed.

Lemma exec_commented : forall oc h b e l l', commented h b e l l' -> e = false -> (N.of_nat h <= 36)%N ->
  forall st cur o st', plain l -> Forall one_line (tokens l) -> (climb (p_ind st) l <= N.of_nat h)%N -> one_line cur ->
  narrow 150 (String.append cur (ideal 4 (p_ind st) l)) -> exec (std_geo oc) l' st = Ok (o, st') ->
  ((b = true -> cur = "") -> (slen cur + 1 = p_col st)%N ->
     adds (String "010" (String.append cur (ideal 4 (p_ind st) l))) (String "010" (String.append cur o))) /\
  (b = false -> ends false l = true -> adds (ideal 4 (p_ind st) l) o /\ exists r, o = String "010" r).
Proof.
  intros oc h b e l l' H. induction H as [b e|b e x l l' H IH|e s l l' S H IH|e s l l' S H IH|b e s l l' S E H IH|b e s l l' S E H IH];
    intros -> H36; intros st cur o st' P T C O N X.
  - injection X as <- <-. split; [intros; constructor|]. intros _ F. discriminate F.
  - cbn [exec] in X. apply and_print_ok in X. destruct X as (w & s1 & o1 & X1 & X & ->).
    inversion P as [|? ? P1 P2]; subst. split.
    + intros B W. destruct (VyNoteExec.exec1_ideal (std_geo oc) x l st cur P1 T) as (w' & st1 & cur1 & E1 & E2 & T1 & C1 & O1 & W1 & N1 & D); try assumption.
      { change (max_indent (std_geo oc)) with 36%N. lia. }
      rewrite X1 in E1. injection E1 as <- <-. cbn [std_geo g_tab g_page] in *. rewrite E2.
      assert (C2 : (climb (p_ind s1) l <= N.of_nat h)%N) by exact (climb_exec1 _ _ _ _ _ _ _ X1 C H36).
      destruct (IH eq_refl H36 s1 cur1 o1 st' P2 T1 C2 O1 N1 X) as (G & _).
      destruct D as [(-> & -> & ->)|(-> & Q & NN)].
      * specialize (G (fun _ => eq_refl) W1). cbn [String.append] in G.
        exact (adds_app (String "010" cur) _ _ G).
      * rewrite !append_assoc in G. apply G; [|exact W1].
        intros SB. destruct x; cbn [starts] in SB; try discriminate SB; try congruence; rewrite Q by auto; now rewrite B.
    + intros -> F. destruct x; cbn [ends] in F; try discriminate F.
      * cbn [exec1 write_newline] in X1. injection X1 as <- <-. cbn [ideal] in *.
        destruct (narrow_nl _ _ _ O N) as (_ & N2).
        destruct (IH eq_refl H36 (PState (p_row st + 1) 1 (p_ind st)) "" o1 st' P2 T) as (G & _); cbn [p_ind]; try assumption; try reflexivity.
        { cbn [climb] in C. lia. }
        specialize (G (fun _ => eq_refl) eq_refl). split; [exact G|]. eexists. reflexivity.
      * cbn [exec1] in X1. injection X1 as <- <-. cbn [ideal] in *.
        assert (I : p_ind (decrease_indent st) = (p_ind st - 1)%N).
        { unfold decrease_indent. cbn [p_ind]. destruct (p_ind st =? 0)%N eqn:Z; [apply N.eqb_eq in Z; lia|reflexivity]. }
        destruct (IH eq_refl H36 (decrease_indent st) cur o1 st' P2 T) as (_ & G); try assumption.
        { rewrite I. cbn [climb] in C. lia. }
        { rewrite I. exact N. }
        rewrite I in G. exact (G eq_refl F).
  - split; [|discriminate]. intros B W. rewrite (B eq_refl) in *. change (slen "") with 0%N in W.
    destruct (line_exec oc h s l' st o st' S (climb_start _ _ _ C) H36 ltac:(lia) X) as (os & s2 & o3 & F & K & X2 & ->).
    destruct (IH eq_refl H36 s2 "" o3 st' P T) as (G & _); try assumption; [now rewrite (proj1 K)|now rewrite (proj1 K)|].
    specialize (G (fun _ => eq_refl)). rewrite (proj2 K) in G. specialize (G eq_refl). rewrite (proj1 K) in G. cbn [String.append] in *.
    destruct (VyNoteExec.margin_blank 4 (p_ind st)) as (M1 & M2).
    exact (adds_text _ "" _ os _ G F M1 M2).
  - split; [|discriminate]. intros B W. rewrite (B eq_refl) in *. change (slen "") with 0%N in W.
    destruct (line_exec oc h s (Newline :: l') st o st' S (climb_start _ _ _ C) H36 ltac:(lia) X) as (os & s2 & o3 & F & K & X2 & ->).
    cbn [exec] in X2. apply and_print_ok in X2. destruct X2 as (w & s3 & o4 & X3 & X2 & ->). cbn [exec1 write_newline] in X3. injection X3 as <- <-.
    rewrite (proj1 K) in X2.
    destruct (IH eq_refl H36 (PState (p_row s2 + 1) 1 (p_ind st)) "" o4 st' P T C O N X2) as (G & _).
    specialize (G (fun _ => eq_refl) eq_refl). cbn [p_ind] in G. cbn [String.append] in *.
    destruct (VyNoteExec.margin_blank 4 (p_ind st)) as (M1 & M2).
    apply (adds_text _ "" _ os _); [|exact F|exact M1|exact M2]. apply (adds_line _ "" ""); [exact G|reflexivity].
  - cbn [exec] in X. apply and_print_ok in X. destruct X as (w & s1 & o1 & X1 & X & ->). cbn [exec1 write_newline] in X1. injection X1 as <- <-.
    destruct (open_exec oc h s l' (PState (p_row st + 1) 1 (p_ind st)) o1 st' S (climb_start _ _ _ C) H36 eq_refl X) as (os & s2 & o3 & F & K & X2 & ->). cbn [p_ind] in *.
    destruct (IH eq_refl H36 s2 cur o3 st' P T) as (_ & G); try assumption; [now rewrite K|now rewrite K|].
    destruct (G eq_refl E) as (G1 & r & ->). rewrite K in G1.
    destruct (VyNoteExec.margin_blank 4 (p_ind st)) as (M1 & M2). split.
    + intros _ _. cbn [String.append nl].
      apply (adds_text _ (String "010" cur) _ os); [|exact F|exact M1|exact M2].
      exact (adds_app (String "010" cur) _ _ G1).
    + intros _ _. split; [|eexists; reflexivity]. cbn [String.append nl].
      exact (adds_text _ "" _ os _ G1 F M1 M2).
  - cbn [exec] in X. apply and_print_ok in X. destruct X as (w & s1 & o1 & X1 & X & ->). cbn [exec1 write_newline] in X1. injection X1 as <- <-.
    apply and_print_ok in X. destruct X as (w & s1 & o0 & X1 & X & ->). cbn [exec1 write_newline] in X1. injection X1 as <- <-.
    destruct (open_exec oc h s l' (PState (p_row st + 1 + 1) 1 (p_ind st)) o0 st' S (climb_start _ _ _ C) H36 eq_refl X) as (os & s2 & o3 & F & K & X2 & ->). cbn [p_ind] in *.
    destruct (IH eq_refl H36 s2 cur o3 st' P T) as (_ & G); try assumption; [now rewrite K|now rewrite K|].
    destruct (G eq_refl E) as (G1 & r & ->). rewrite K in G1.
    destruct (VyNoteExec.margin_blank 4 (p_ind st)) as (M1 & M2). split.
    + intros _ _. cbn [String.append nl].
      apply (adds_line _ (String "010" cur) ""); [|reflexivity].
      apply (adds_text _ (String "010" cur) _ os); [|exact F|exact M1|exact M2].
      exact (adds_app (String "010" cur) _ _ G1).
    + intros _ _. split; [|eexists; reflexivity]. cbn [String.append nl].
      apply (adds_line _ "" ""); [|reflexivity].
      exact (adds_text _ "" _ os _ G1 F M1 M2).
Qed.
