(** Printing with comments on lines of their own: the text without them, with
    lines added. *)
From Coq Require Import String Ascii List NArith ZArith Bool Lia.
From Verif Require Import Base Json JsonFacts Printer VyPrinter SpecPrinter SpecLiteral SpecVyText SpecVyRead SpecVyEdit
  TextFacts LayoutFacts FlowFacts EmitFacts VyEmit PrintFacts LitFacts PathFacts IdealFacts VyText VyTextStmt VyReadLex VyReadNote.
Import ListNotations.
Open Scope string_scope.
Open Scope list_scope.

(** ** Lines *)

Lemma marked_ignorable : forall s, one_line s -> marked "#" s -> ignorable s = true.
Proof.
  assert (N : forall s, one_line s -> every not_nl s = true).
  { induction s as [|c s IH]; [reflexivity|]. unfold one_line, not_nl in *. cbn [every str_contains]. rewrite (Ascii.eqb_sym "010" c). destruct (Ascii.eqb c "010") eqn:E.
    - discriminate.
    - intros H. cbn [negb andb]. apply IH. exact H. }
  intros s O M. unfold ignorable. rewrite (N s O). cbn [andb]. specialize (N s O).
  assert (B : forall w r, blank w -> every not_nl w = true -> snd (span (Ascii.eqb " ") (String.append w r)) = snd (span (Ascii.eqb " ") r)).
  { clear. induction w as [|c w IH]; intros r H E; [reflexivity|]. cbn [blank] in H. destruct H as ([-> | ->] & H).
    - cbn [every] in E. apply andb_true_iff in E. destruct E as (_ & E). cbn [String.append span Ascii.eqb Bool.eqb].
      rewrite <- (IH r H E). destruct (span (Ascii.eqb " ") (String.append w r)). reflexivity.
    - discriminate E. }
  destruct M as [M|(w & r & M & ->)].
  - rewrite <- (append_nil_s s). rewrite (B s "" M N). reflexivity.
  - rewrite B; [reflexivity|exact M|].
    clear - N. induction w as [|c w IH]; [reflexivity|]. cbn [String.append every] in *. apply andb_true_iff in N. destruct N as (E & N).
    now rewrite E, (IH N).
Qed.

Lemma blank_app : forall a b, blank a -> blank b -> blank (String.append a b).
Proof. induction a as [|c a IH]; intros b Ha Hb; [exact Hb|]. destruct Ha as (H & Ha). split; [exact H|]. now apply IH. Qed.

Lemma marked_app : forall m s, blank m -> marked "#" s -> marked "#" (String.append m s).
Proof.
  intros m s B [H|(w & r & H & ->)].
  - left. now apply blank_app.
  - right. exists (String.append m w), r. split; [now apply blank_app|]. now rewrite append_assoc.
Qed.

Lemma first_line : forall s, one_line s \/ exists a b, s = String.append a (String "010" b) /\ one_line a.
Proof.
  induction s as [|c s IH]; [left; reflexivity|]. destruct (Ascii.eqb "010" c) eqn:E.
  - right. apply Ascii.eqb_eq in E. subst c. exists "", s. split; reflexivity.
  - destruct IH as [H|(a & b & -> & H)].
    + left. unfold one_line in *. cbn [str_contains]. now rewrite E.
    + right. exists (String c a), b. split; [reflexivity|]. unfold one_line in *. cbn [str_contains]. now rewrite E.
Qed.

Lemma adds_text : forall s A B o m, adds s (String.append A (String "010" B)) -> Forall (marked "#") (lines o) ->
  blank m -> one_line m ->
  adds s (String.append A (String "010" (String.append m (String.append o (String "010" B))))).
Proof.
  intros s A B o. remember (String.length o) as n eqn:L. revert A B o L. induction n as [n IH] using lt_wf_ind.
  intros A B o -> m H F Bm Om. destruct (first_line o) as [O|(a & b & -> & O)].
  - unfold lines in F. rewrite split_one in F by exact O. inversion F; subst. rewrite <- append_assoc.
    apply adds_line; [exact H|]. apply marked_ignorable; [now apply one_line_append|now apply marked_app].
  - unfold lines in F. rewrite split_app, (split_one _ _ O) in F. cbn [split_on Ascii.eqb Bool.eqb] in F.
    assert (F2 : Forall (marked "#") (a :: split_on "010" b)).
    { revert F. cbn. rewrite append_nil_s. intros F. exact F. }
    inversion F2 as [|? ? M1 M2]; subst.
    rewrite append_assoc. cbn [String.append]. rewrite <- append_assoc.
    apply adds_line; [|apply marked_ignorable; [now apply one_line_append|now apply marked_app]].
    apply (IH (String.length b)) with (m := ""); try reflexivity; [|exact H|exact M2].
    clear. induction a as [|c a IHa]; cbn [String.append String.length]; lia.
Qed.

(** ** Requests with comments among them *)

(** What a comment asks for. *)
Definition note (s : list cmd) : Prop := exists c n, a_comment n /\ s = vy_emit c n.

(** At the start of a line after the request. *)
Definition starts (b : bool) (x : cmd) : bool := match x with Newline => true | Inc | Dec => b | _ => false end.
Definition after (b : bool) (l : list cmd) : bool := fold_left starts l b.

(** The line ends here ([e]: it does behind the requests). *)
Fixpoint ends (e : bool) (l : list cmd) : bool :=
  match l with [] => e | Newline :: _ => true | Dec :: l => ends e l | _ => false end.

Inductive commented : bool -> bool -> list cmd -> list cmd -> Prop :=
| cm_nil : forall b e, commented b e [] []
| cm_cons : forall b e x l l', commented (starts b x) e l l' -> commented b e (x :: l) (x :: l')
| cm_line : forall e s l l', note s -> commented true e l l' -> commented true e l (Indent :: s ++ Newline :: l')
| cm_top : forall e s l l', note s -> commented true e l l' -> commented true e l (s ++ Newline :: Newline :: l')
| cm_last : forall b e s l l', note s -> ends e l = true -> commented false e l l' ->
    commented b e l (Newline :: Indent :: s ++ l').

Lemma note_exec : forall oc s st o st', note s ->
  (p_ind st <= max_indent (std_geo oc))%N -> (p_col st <= indent_length (std_geo oc) st + 1)%N ->
  exec (std_geo oc) s st = Ok (o, st') -> Forall (marked "#") (lines o) /\ p_ind st' = p_ind st.
Proof.
  intros oc s st o st' (c & n & A & ->) I C X.
  pose proof (std_room oc st "#" I C ltac:(vm_compute; discriminate)) as R.
  assert (E : vy_emit c n = v_Comment c vy_emit n) by exact (vy_comment_emit _ _ A).
  assert (K : p_ind st' = p_ind st).
  { rewrite E in X. unfold v_Comment in X.
    refine (balanced_indent _ _ _ _ _ _ _ X).
    - intros h. destruct (oget n "value") as [[]|]; reflexivity.
    - destruct (oget n "value") as [[]|]; cbn [opt climb]; lia. }
  split; [|exact K]. destruct (oget n "value") as [v|] eqn:V.
  - destruct v as [| | |text| |fields].
    all: try (rewrite E in X; unfold v_Comment in X; rewrite V in X; cbn [opt exec] in X; injection X as <- <-; repeat constructor).
    + exact (vy_text_comment_lines _ c n text st o st' A V R X).
    + destruct (vy_node_comment_lines _ c n fields st o st' A V R X) as (_ & _ & _ & _ & F). exact F.
  - rewrite E in X; unfold v_Comment in X; rewrite V in X; cbn [opt exec] in X; injection X as <- <-; repeat constructor.
Qed.

Lemma exec1_ideal : forall g x l st cur,
  plain1 x -> Forall one_line (tokens (x :: l)) -> (climb (p_ind st) (x :: l) <= max_indent g)%N ->
  one_line cur -> (slen cur + 1 = p_col st)%N ->
  narrow (g_page g) (String.append cur (ideal (g_tab g) (p_ind st) (x :: l))) ->
  exists w st1 cur1, exec1 g x st = Ok (w, st1) /\ ideal (g_tab g) (p_ind st) (x :: l) = String.append w (ideal (g_tab g) (p_ind st1) l) /\
    Forall one_line (tokens l) /\ (climb (p_ind st1) l <= max_indent g)%N /\ one_line cur1 /\ (slen cur1 + 1 = p_col st1)%N /\
    narrow (g_page g) (String.append cur1 (ideal (g_tab g) (p_ind st1) l)) /\
    ((x = Newline /\ cur1 = "" /\ w = newline) \/ (cur1 = String.append cur w /\ ((x = Inc \/ x = Dec) -> w = "") /\ x <> Newline)).
Proof.
  intros g x l st cur P1 T C O W N.
  pose proof (climb_cons x l (p_ind st)) as CC.
  destruct x; cbn [plain1] in P1; try contradiction; cbn [ideal] in *; cbn [exec1].
  - cbn [tokens flat_map app] in T. inversion T as [|? ? T1 T2]; subst. rewrite <- app_assoc_s in N.
    assert (O2 : one_line (String.append cur s)) by now apply one_line_append.
    pose proof (narrow_prefix _ _ _ O2 N) as R. rewrite slen_app in R. rewrite write_token_room by lia.
    eexists _, _, (String.append cur s). split; [reflexivity|]. split; [reflexivity|]. split; [exact T2|]. cbn [p_ind p_col].
    split; [lia|]. split; [exact O2|]. split; [rewrite slen_app; lia|]. split; [exact N|]. right. split; [reflexivity|]. split; [intros [H|H]; discriminate|discriminate].
  - change (String.append cur (String " " (ideal (g_tab g) (p_ind st) l))) with (String.append cur (String.append " " (ideal (g_tab g) (p_ind st) l))) in N.
    rewrite <- app_assoc_s in N. assert (O2 : one_line (String.append cur " ")) by now apply one_line_append.
    pose proof (narrow_prefix _ _ _ O2 N) as R. rewrite slen_app in R. change (slen " ") with 1%N in R. rewrite write_space_room by lia.
    eexists _, _, (String.append cur " "). split; [reflexivity|]. split; [reflexivity|]. split; [exact T|]. cbn [p_ind p_col].
    split; [lia|]. split; [exact O2|]. split; [rewrite slen_app; change (slen " ") with 1%N; lia|]. split; [exact N|].
    right. split; [reflexivity|]. split; [intros [H|H]; discriminate|discriminate].
  - destruct (narrow_nl _ _ _ O N) as (_ & N2). eexists _, _, "". split; [reflexivity|]. split; [reflexivity|]. split; [exact T|].
    cbn [p_ind p_col]. split; [lia|]. split; [reflexivity|]. split; [reflexivity|]. split; [exact N2|]. left. repeat split.
  - rewrite <- app_assoc_s in N. assert (OM : one_line (margin (g_tab g) (p_ind st))) by apply one_line_spaces.
    assert (O2 : one_line (String.append cur (margin (g_tab g) (p_ind st)))) by now apply one_line_append.
    rewrite write_indent_ok, <- margin_indent. eexists _, _, (String.append cur (margin (g_tab g) (p_ind st))).
    split; [reflexivity|]. split; [reflexivity|]. split; [exact T|]. cbn [p_ind p_col]. split; [lia|]. split; [exact O2|].
    split; [rewrite slen_app, slen_margin; unfold indent_length; lia|]. split; [exact N|]. right. split; [reflexivity|]. split; [intros [H|H]; discriminate|discriminate].
  - assert (L : (p_ind st + 1 <= max_indent g)%N) by (pose proof (climb_ge l (p_ind st + 1)); lia).
    assert (I : p_ind (increase_indent g st) = (p_ind st + 1)%N).
    { unfold increase_indent. cbn [p_ind]. replace (max_indent g <=? p_ind st)%N with false; [reflexivity|]. symmetry. apply N.leb_gt. lia. }
    eexists _, _, cur. split; [reflexivity|]. rewrite I. split; [reflexivity|]. split; [exact T|]. split; [lia|]. split; [exact O|]. split; [exact W|].
    split; [exact N|]. right. split; [now rewrite append_nil_s|]. split; [reflexivity|discriminate].
  - assert (I : p_ind (decrease_indent st) = (p_ind st - 1)%N).
    { unfold decrease_indent. cbn [p_ind]. destruct (p_ind st =? 0)%N eqn:Z; [apply N.eqb_eq in Z; lia|reflexivity]. }
    eexists _, _, cur. split; [reflexivity|]. rewrite I. split; [reflexivity|]. split; [exact T|]. split; [lia|]. split; [exact O|]. split; [exact W|].
    split; [exact N|]. right. split; [now rewrite append_nil_s|]. split; [reflexivity|discriminate].
Qed.

Lemma margin_blank : forall tab ind, blank (margin tab ind) /\ one_line (margin tab ind).
Proof.
  intros tab ind. split; [|apply one_line_spaces]. unfold margin. induction (N.to_nat (ind * tab)) as [|n IH]; [exact Logic.I|].
  split; [left; reflexivity|exact IH].
Qed.

Lemma ends_newline : forall tab l ind, ends false l = true -> exists i r, ideal tab ind l = String.append newline (ideal tab i r).
Proof.
  intros tab. induction l as [|x l IH]; intros ind E; [discriminate E|]. destruct x; cbn [ends] in E; try discriminate E.
  - exists ind, l. reflexivity.
  - cbn [ideal]. exact (IH _ E).
Qed.

Lemma exec_app_ok : forall g a b st o st', exec g (a ++ b) st = Ok (o, st') ->
  exists o1 s1 o2, exec g a st = Ok (o1, s1) /\ exec g b s1 = Ok (o2, st') /\ o = String.append o1 o2.
Proof.
  intros g. induction a as [|x a IH]; intros b st o st' X.
  - exists "", st, o. repeat split. exact X.
  - cbn [app exec] in X. apply and_print_ok in X. destruct X as (w & s1 & o1 & X1 & X & ->).
    destruct (IH _ _ _ _ X) as (o2 & s2 & o3 & Y1 & Y2 & ->). exists (String.append w o2), s2, o3.
    split; [cbn [exec]; eapply and_print_intro; eassumption|]. split; [exact Y2|]. now rewrite append_assoc.
Qed.

Lemma exec_commented : forall oc b e l l', commented b e l l' -> e = false ->
  forall st cur o st', plain l -> Forall one_line (tokens l) -> (climb (p_ind st) l <= max_indent (std_geo oc))%N -> one_line cur ->
  narrow 150 (String.append cur (ideal 4 (p_ind st) l)) -> exec (std_geo oc) l' st = Ok (o, st') ->
  ((b = true -> cur = "") -> (slen cur + 1 = p_col st)%N ->
     adds (String "010" (String.append cur (ideal 4 (p_ind st) l))) (String "010" (String.append cur o))) /\
  (b = false -> ends false l = true -> adds (ideal 4 (p_ind st) l) o /\ exists r, o = String "010" r).
Proof.
  intros oc b e l l' H. induction H as [b e|b e x l l' H IH|e s l l' S H IH|e s l l' S H IH|b e s l l' S E H IH];
    intros ->; intros st cur o st' P T C O N X.
  - injection X as <- <-. split; [intros; constructor|]. intros _ F. discriminate F.
  - cbn [exec] in X. apply and_print_ok in X. destruct X as (w & s1 & o1 & X1 & X & ->).
    inversion P as [|? ? P1 P2]; subst. split.
    + intros B W. destruct (exec1_ideal (std_geo oc) x l st cur P1 T C O W N) as (w' & st1 & cur1 & E1 & E2 & T1 & C1 & O1 & W1 & N1 & D).
      rewrite X1 in E1. injection E1 as <- <-. cbn [std_geo g_tab g_page] in *. rewrite E2.
      destruct (IH eq_refl s1 cur1 o1 st' P2 T1 C1 O1 N1 X) as (G & _).
      destruct D as [(-> & -> & ->)|(-> & Q & NN)].
      * specialize (G (fun _ => eq_refl) W1). cbn [String.append] in G.
        exact (adds_app (String "010" cur) _ _ G).
      * rewrite !append_assoc in G. apply G; [|exact W1].
        intros SB. destruct x; cbn [starts] in SB; try discriminate SB; try congruence; rewrite Q by auto; now rewrite B.
    + intros -> F. destruct x; cbn [ends] in F; try discriminate F.
      * cbn [exec1 write_newline] in X1. injection X1 as <- <-. cbn [ideal] in *.
        destruct (narrow_nl _ _ _ O N) as (_ & N2).
        destruct (IH eq_refl (PState (p_row st + 1) 1 (p_ind st)) "" o1 st' P2 T) as (G & _); cbn [p_ind]; try assumption; try reflexivity.
        { cbn [climb] in C. lia. }
        specialize (G (fun _ => eq_refl) eq_refl). split; [exact G|]. eexists. reflexivity.
      * cbn [exec1] in X1. injection X1 as <- <-. cbn [ideal] in *.
        assert (I : p_ind (decrease_indent st) = (p_ind st - 1)%N).
        { unfold decrease_indent. cbn [p_ind]. destruct (p_ind st =? 0)%N eqn:Z; [apply N.eqb_eq in Z; lia|reflexivity]. }
        destruct (IH eq_refl (decrease_indent st) cur o1 st' P2 T) as (_ & G); try assumption.
        { rewrite I. cbn [climb] in C. lia. }
        { rewrite I. exact N. }
        rewrite I in G. exact (G eq_refl F).
  - split; [|discriminate]. intros B W. rewrite (B eq_refl) in *. cbn [exec] in X.
    apply and_print_ok in X. destruct X as (w & s1 & o1 & X1 & X & ->). cbn [exec1] in X1. rewrite write_indent_ok in X1. injection X1 as <- <-.
    apply exec_app_ok in X. destruct X as (os & s2 & o2 & X2 & X & ->). cbn [exec] in X.
    apply and_print_ok in X. destruct X as (w & s3 & o3 & X3 & X & ->). cbn [exec1 write_newline] in X3. injection X3 as <- <-.
    assert (I : (p_ind st <= max_indent (std_geo oc))%N) by (pose proof (climb_ge l (p_ind st)); lia).
    assert (J : (p_col (PState (p_row st) (p_col st + indent_length (std_geo oc) st) (p_ind st)) <=
                 indent_length (std_geo oc) (PState (p_row st) (p_col st + indent_length (std_geo oc) st) (p_ind st)) + 1)%N)
      by (cbn [p_col]; unfold indent_length; cbn [p_ind]; change (slen "") with 0%N in W; lia).
    destruct (note_exec oc s (PState (p_row st) (p_col st + indent_length (std_geo oc) st) (p_ind st)) os s2 S I J X2) as (F & K).
    cbn [p_ind] in K.
    rewrite K in X. destruct (IH eq_refl (PState (p_row s2 + 1) 1 (p_ind st)) "" o3 st' P T C O N X) as (G & _).
    specialize (G (fun _ => eq_refl) eq_refl). cbn [p_ind] in G. cbn [String.append] in *.
    rewrite <- margin_indent. destruct (margin_blank (g_tab (std_geo oc)) (p_ind st)) as (M1 & M2).
    exact (adds_text _ "" _ os _ G F M1 M2).
  - split; [|discriminate]. intros B W. rewrite (B eq_refl) in *.
    apply exec_app_ok in X. destruct X as (os & s2 & o2 & X2 & X & ->). cbn [exec] in X.
    apply and_print_ok in X. destruct X as (w & s3 & o3 & X3 & X & ->). cbn [exec1 write_newline] in X3. injection X3 as <- <-.
    apply and_print_ok in X. destruct X as (w & s4 & o4 & X4 & X & ->). cbn [exec1 write_newline] in X4. injection X4 as <- <-.
    assert (I : (p_ind st <= max_indent (std_geo oc))%N) by (pose proof (climb_ge l (p_ind st)); lia).
    assert (J : (p_col st <= indent_length (std_geo oc) st + 1)%N) by (change (slen "") with 0%N in W; lia).
    destruct (note_exec oc s st os s2 S I J X2) as (F & K).
    cbn [p_row p_ind] in X. rewrite K in X. destruct (IH eq_refl (PState (p_row s2 + 1 + 1) 1 (p_ind st)) "" o4 st' P T C O N X) as (G & _).
    specialize (G (fun _ => eq_refl) eq_refl). cbn [p_ind] in G. cbn [String.append] in *.
    apply (adds_text _ "" _ os ""); [|exact F|exact Logic.I|reflexivity].
    apply (adds_line _ "" ""); [exact G|reflexivity].
  - cbn [exec] in X. apply and_print_ok in X. destruct X as (w & s1 & o1 & X1 & X & ->). cbn [exec1 write_newline] in X1. injection X1 as <- <-.
    apply and_print_ok in X. destruct X as (w & s2 & o2 & X2 & X & ->). cbn [exec1] in X2. rewrite write_indent_ok in X2. injection X2 as <- <-.
    apply exec_app_ok in X. destruct X as (os & s3 & o3 & X3 & X & ->).
    assert (I : (p_ind st <= max_indent (std_geo oc))%N) by (pose proof (climb_ge l (p_ind st)); lia).
    match type of X3 with exec _ _ ?s0 = _ => assert (FK : Forall (marked "#") (lines os) /\ p_ind s3 = p_ind s0)
      by (refine (note_exec oc s s0 os s3 S I _ X3); cbn [p_col]; unfold indent_length; cbn [p_ind]; lia) end.
    destruct FK as (F & K). cbn [p_ind] in K.
    rewrite <- K in C, N. destruct (IH eq_refl s3 cur o3 st' P T C O N X) as (_ & G). rewrite K in C, N.
    destruct (G eq_refl E) as (G1 & r & ->). rewrite K in G1. rewrite <- margin_indent. cbn [p_ind].
    destruct (margin_blank (g_tab (std_geo oc)) (p_ind st)) as (M1 & M2). split.
    + intros _ _. cbn [String.append nl].
      apply (adds_text _ (String "010" cur) _ os); [|exact F|exact M1|exact M2].
      exact (adds_app (String "010" cur) _ _ G1).
    + intros _ _. split; [|eexists; reflexivity]. cbn [String.append nl].
      exact (adds_text _ "" _ os _ G1 F M1 M2).
Qed.
