(** Documentation comments: the text of a documentation node, and of a
    declaration with documentation. *)
From Coq Require Import String Ascii List NArith ZArith Bool Lia.
From Verif Require Import Base Json JsonFacts Printer SolPrinter SpecPrinter SpecVyText SpecSolText SpecSolRead SpecDoc
  TextFacts LayoutFacts FlowFacts EmitFacts SolEmit PrintFacts VyNoteExec SolText.
Import ListNotations.
Open Scope string_scope.
Open Scope list_scope.

(** ** The end of a comment *)

Fixpoint closes (s : string) : bool :=
  match s with
  | EmptyString => false
  | String c r => Ascii.eqb c "*" && starts_with "/" r || closes r
  end.

Lemma closes_true : forall s, closes s = true -> closes_comment s.
Proof.
  induction s as [|c s IH]; intros H; [discriminate|]. cbn [closes] in H. apply orb_true_iff in H. destruct H as [H|H].
  - apply andb_true_iff in H. destruct H as (A & B). apply Ascii.eqb_eq in A. subst c.
    destruct s as [|d s]; [discriminate B|]. cbn in B. apply Ascii.eqb_eq in B. subst d. now exists "", s.
  - destruct (IH H) as (a & b & ->). now exists (String c a), b.
Qed.

Lemma closes_false : forall s, ~ closes_comment s -> closes s = false.
Proof. intros s H. destruct (closes s) eqn:E; [|reflexivity]. destruct (H (closes_true _ E)). Qed.

Lemma blank_not : forall b c, blank_char b -> c = "*"%char \/ c = "/"%char -> Ascii.eqb b c = false.
Proof. intros b c [->| ->] [->| ->]; reflexivity. Qed.

Lemma closes_app : forall a b s, blank_char b -> closes (String.append a (String b s)) = closes a || closes s.
Proof.
  induction a as [|c a IH]; intros b s B; cbn [String.append closes].
  - rewrite (blank_not b _ B (or_introl eq_refl)). reflexivity.
  - rewrite IH by exact B. rewrite <- orb_assoc. f_equal. f_equal. destruct a as [|d a]; [|reflexivity].
    cbn [String.append starts_with]. exact (blank_not b _ B (or_intror eq_refl)).
Qed.

Lemma closes_blank : forall w s, blank w -> closes (String.append w s) = closes s.
Proof.
  induction w as [|c w IH]; intros s B; [reflexivity|]. destruct B as (B & W). cbn [String.append closes].
  rewrite (blank_not c _ B (or_introl eq_refl)). exact (IH s W).
Qed.

Lemma after_found : forall a rest, closes a = false -> after_comment (String.append a (String.append "*/" rest)) = Some rest.
Proof.
  induction a as [|c a IH]; intros rest H; [reflexivity|]. cbn [closes] in H. apply orb_false_iff in H. destruct H as (H & K).
  specialize (IH rest K). cbn [String.append]. destruct a as [|d a].
  - cbn [String.append] in *. cbn [after_comment] in *. rewrite andb_false_r. exact IH.
  - cbn [String.append] in *. change (after_comment (String c ?r)) with (match r with String d r' => if Ascii.eqb c "*" && Ascii.eqb d "/" then Some r' else after_comment r | EmptyString => None end).
    cbn [starts_with] in H. cbn iota. rewrite H. exact IH.
Qed.

(** The characters are never apart: they are in a word. *)
Lemma closes_split : forall c s, blank_char c -> closes s = existsb closes (split_on c s).
Proof.
  intros c s B. induction s as [|d s IH]; [reflexivity|]. cbn [closes split_on]. destruct (Ascii.eqb c d) eqn:E.
  - apply Ascii.eqb_eq in E. subst d. rewrite (blank_not c _ B (or_introl eq_refl)). cbn [andb orb existsb closes]. exact IH.
  - destruct (split_on c s) as [|x l] eqn:Q; [destruct (split_nonempty c s Q)|].
    cbn [existsb closes] in *. rewrite IH, orb_assoc. f_equal. f_equal. f_equal.
    destruct s as [|e s]; [now injection Q as <- <-|]. cbn [split_on] in Q. destruct (Ascii.eqb c e) eqn:F.
    + injection Q as <- <-. apply Ascii.eqb_eq in F. subst e. cbn [starts_with]. exact (blank_not c _ B (or_intror eq_refl)).
    + destruct (split_on c s); injection Q as <- <-; reflexivity.
Qed.

Lemma existsb_flat : forall A B (f : B -> bool) (h : A -> list B) l, existsb f (flat_map h l) = existsb (fun x => existsb f (h x)) l.
Proof. intros A B f h l. induction l as [|x l IH]; [reflexivity|]. cbn [flat_map existsb]. now rewrite existsb_app, IH. Qed.

Lemma closes_words : forall s, closes s = existsb closes (words s).
Proof.
  intros s. unfold words, lines. rewrite (closes_split "010" s) by (right; reflexivity).
  assert (F : forall l, existsb closes (filter (fun w => negb (is_empty_str w)) l) = existsb closes l).
  { induction l as [|x l IH]; [reflexivity|]. cbn [filter existsb]. destruct x; [exact IH|]. cbn [is_empty_str negb existsb]. now rewrite IH. }
  rewrite F, existsb_flat. induction (split_on "010" s) as [|x l IH]; [reflexivity|]. cbn [existsb].
  rewrite IH. f_equal. apply closes_split. now left.
Qed.

Lemma closes_same : forall ls t, flat_map words ls = words t -> closes t = false -> forallb (fun l => negb (closes l)) ls = true.
Proof.
  intros ls t E H. rewrite closes_words, <- E in H. clear E. induction ls as [|l ls IH]; [reflexivity|].
  cbn [flat_map forallb] in *. rewrite existsb_app in H. apply orb_false_iff in H. destruct H as (H & K).
  rewrite <- closes_words in H. rewrite H. exact (IH K).
Qed.

(** ** One comment for the reader *)

Lemma doc_body : forall ls s, doc_lines ls s -> forallb (fun l => negb (closes l)) ls = true ->
  exists b a, s = String.append (String b a) "*/" /\ blank_char b /\ closes (String b a) = false.
Proof.
  intros ls s H. induction H as [w W N|w b l ls s W N B H IH]; intros F.
  - destruct w as [|b w]; [discriminate N|]. exists b, w. split; [reflexivity|]. split; [exact (proj1 W)|].
    rewrite <- (app_nil_r_s (String b w)). now rewrite closes_blank.
  - cbn [forallb] in F. apply andb_true_iff in F. destruct F as (F1 & F2). destruct (IH F2) as (b2 & a2 & -> & B2 & C2).
    destruct w as [|bw w]; [discriminate N|]. destruct W as (W1 & W2).
    exists bw, (String.append w (String.append "*" (String.append (String b l) (String b2 a2)))).
    split; [cbn [String.append]; rewrite !app_assoc_s; cbn [String.append]; rewrite ?app_assoc_s; reflexivity|]. split; [exact W1|].
    change (String bw (String.append w ?x)) with (String.append (String bw w) x). rewrite closes_blank by (split; assumption).
    change (String.append "*" (String.append (String b l) (String b2 a2))) with (String.append "*" (String b (String.append l (String b2 a2)))).
    rewrite closes_app by exact B. cbn [closes andb orb starts_with]. rewrite closes_app by exact B2.
    apply negb_true_iff in F1. cbn [closes] in F1, C2. apply orb_false_iff in F1, C2. now rewrite (proj2 F1), (proj2 C2).
Qed.

Lemma doc_skipped : forall ls s, doc_comment ls s -> forallb (fun l => negb (closes l)) ls = true -> skipped s.
Proof.
  intros ls s (w & body & W & -> & H) F. destruct (doc_body _ _ H F) as (b & a & -> & B & C).
  exists w, (String.append "/**" (String.append (String b a) "*/")). split; [exact W|]. split; [reflexivity|]. intros rest.
  cbn [String.append].
  change (option_map (fun r => (@None token, r)) (after_comment (String "*" (String b (String.append (String.append a "*/") rest)))) = Some (None, rest)).
  rewrite app_assoc_s.
  change (String "*" (String b (String.append a (String.append "*/" rest)))) with (String.append (String.append "*" (String b a)) (String.append "*/" rest)).
  rewrite after_found; [reflexivity|]. rewrite closes_app by exact B. cbn [closes andb orb starts_with].
  cbn [closes] in C. apply orb_false_iff in C. exact (proj2 C).
Qed.

(** ** The text of the node *)

Lemma words_blank : forall u p, blank u -> words (String.append u p) = words p.
Proof.
  induction u as [|c u IH]; intros p B; [reflexivity|]. destruct B as (B & U). rewrite <- (IH p U), !words_unline. cbn [String.append unline].
  destruct B as [->| ->]; apply pwords_cons_space.
Qed.

Lemma pieces_doc : forall ps s, pieces " *   " ps s -> forall w b u ls tail,
  blank w -> str_contains "010" w = true -> blank (String b u) -> doc_lines ls tail ->
  exists ls0, doc_lines (ls0 ++ ls) (String.append w (String.append "*" (String.append (String b u) (String.append s tail)))) /\
    flat_map words ls0 = flat_map words ps.
Proof.
  intros ps s H. induction H as [p|p w2 ps s W2 N2 H IH]; intros w b u ls tail W N B T.
  - exists [String.append (String b u) p]. split.
    + cbn [app]. rewrite <- (app_assoc_s (String b u)). apply Doc_line; try assumption. exact (proj1 B).
    + cbn [flat_map]. now rewrite words_blank.
  - destruct (IH (String.append w2 " ") " "%char "  " ls tail) as (ls0 & D & E).
    + apply blank_app; [exact W2|]. split; [now left|exact Logic.I].
    + rewrite str_contains_app, N2. reflexivity.
    + repeat split; now left.
    + exact T.
    + exists (String.append (String b u) p :: ls0). split.
      * cbn [app].
        replace (String.append w (String.append "*" (String.append (String b u) (String.append (String.append p (String.append w2 (String.append " *   " s))) tail))))
          with (String.append w (String.append "*" (String.append (String.append (String b u) p)
                 (String.append (String.append w2 " ") (String.append "*" (String.append "   " (String.append s tail)))))))
          by (rewrite !app_assoc_s; reflexivity).
        apply Doc_line; try assumption. exact (proj1 B).
      * cbn [flat_map]. now rewrite words_blank, E.
Qed.

(** From the line break to the marker. *)
Lemma lead_in : forall g m k st o st', exec g ([Newline; Indent; Space; Tok m] ++ k) st = Ok (o, st') ->
  exists w s1 o1, blank w /\ str_contains "010" w = true /\ exec g k s1 = Ok (o1, st') /\ p_ind s1 = p_ind st /\
    o = String.append w (String.append m o1).
Proof.
  intros g m k st o st' H. cbn [app exec exec1] in H. rewrite <- and_print_assoc in H.
  apply and_print_ok in H. destruct H as (a & s & x & H1 & H & ->). rewrite newline_indent_ok in H1. injection H1 as <- <-.
  apply and_print_ok in H. destruct H as (a2 & s2 & x2 & H1 & H & ->).
  destruct (write_space_ok g (PState (p_row st + 1) (1 + indent_length g st) (p_ind st))) as (w2 & sx & E & B2 & I2 & _).
  rewrite E in H1. injection H1 as <- <-.
  apply and_print_ok in H. destruct H as (a3 & s3 & x3 & H1 & H & ->). apply write_token_shape in H1. destruct H1 as ((w3 & B3 & ->) & I3).
  exists (String.append (String.append nl (indent_string g st)) (String.append (String.append w2 " ") w3)), s3, x3.
  split; [|split; [|split; [exact H|split; [cbn [p_ind] in I2; congruence|]]]].
  - apply blank_app; [apply blank_lead1|]. apply blank_app; [|exact B3]. apply blank_app; [exact B2|]. split; [now left|exact Logic.I].
  - rewrite !str_contains_app. reflexivity.
  - rewrite !app_assoc_s. reflexivity.
Qed.

Lemma doc_row : forall g t k st o st',
  exec g ([Newline; Indent; Space; Tok "*"; Space; Flow t " *   "] ++ k) st = Ok (o, st') ->
  exists o1 s1 o2, exec g k s1 = Ok (o2, st') /\ p_ind s1 = p_ind st /\ o = String.append o1 o2 /\
    forall ls, doc_lines ls o2 -> exists ls0, doc_lines (ls0 ++ ls) (String.append o1 o2) /\ flat_map words ls0 = words t.
Proof.
  intros g t k st o st' H. change ([Newline; Indent; Space; Tok "*"; Space; Flow t " *   "] ++ k) with ([Newline; Indent; Space; Tok "*"] ++ (Space :: Flow t " *   " :: k)) in H.
  destruct (lead_in _ _ _ _ _ _ H) as (w & s & x & W & N & H1 & I1 & ->). clear H. cbn [exec exec1] in H1.
  apply and_print_ok in H1. destruct H1 as (a & s2 & x2 & H1 & H & ->).
  destruct (write_space_ok g s) as (w2 & sx & E & B2 & I2 & _). rewrite E in H1. injection H1 as <- <-.
  apply and_print_ok in H. destruct H as (a3 & s3 & x3 & H1 & H & ->). apply write_flow_pieces in H1. destruct H1 as (ps & P & _ & Q & I3).
  exists (String.append w (String.append "*" (String.append (String.append w2 " ") a3))), s3, x3.
  split; [exact H|]. split; [congruence|]. split; [rewrite !app_assoc_s; reflexivity|]. intros ls T.
  assert (B : blank (String.append w2 " ")) by (apply blank_app; [exact B2|]; split; [now left|exact Logic.I]).
  destruct (String.append w2 " ") as [|b u] eqn:X; [destruct w2; discriminate X|].
  destruct (pieces_doc _ _ P w b u ls x3 W N B T) as (ls0 & D & F). exists ls0. split; [|congruence].
  rewrite !app_assoc_s. exact D.
Qed.

Lemma doc_rows : forall g ts st o st',
  exec g (flat_map (fun t => [Newline; Indent; Space; Tok "*"; Space; Flow t " *   "]) ts ++ [Newline; Indent; Space; Tok "*/"]) st = Ok (o, st') ->
  exists ls, doc_lines ls o /\ flat_map words ls = flat_map words ts /\ p_ind st' = p_ind st.
Proof.
  intros g. induction ts as [|t ts IH]; intros st o st' H.
  - cbn [flat_map] in H. change ([] ++ [Newline; Indent; Space; Tok "*/"]) with ([Newline; Indent; Space; Tok "*/"] ++ []) in H.
    destruct (lead_in _ _ _ _ _ _ H) as (w & s & x & W & N & H1 & I1 & ->). cbn [exec] in H1. injection H1 as <- <-.
    exists []. split; [|split; [reflexivity|exact I1]]. exact (Doc_end w W N).
  - cbn [flat_map] in H. rewrite <- app_assoc in H. destruct (doc_row _ _ _ _ _ _ H) as (o1 & s1 & o2 & H1 & I1 & -> & K).
    destruct (IH _ _ _ H1) as (ls & D & E & I2). destruct (K ls D) as (ls0 & D0 & E0). exists (ls0 ++ ls).
    split; [exact D0|]. split; [|congruence]. rewrite flat_map_app. cbn [flat_map]. now rewrite E0, E.
Qed.

Lemma words_lines : forall t, flat_map words (split_on "010" t) = words t.
Proof.
  intros t. unfold words at 2. unfold lines.
  assert (O : Forall one_line (split_on "010" t)).
  { induction t as [|c t IH]; [now repeat constructor|]. cbn [split_on]. destruct (Ascii.eqb "010" c) eqn:E; [constructor; [reflexivity|exact IH]|].
    destruct (split_on "010" t) as [|x l]; [constructor; [|constructor]; unfold one_line; cbn [str_contains]; rewrite E; reflexivity|].
    inversion IH; subst. constructor; [|assumption]. unfold one_line in *. cbn [str_contains]. rewrite E. assumption. }
  induction O as [|x l X O IH]; [reflexivity|]. cbn [flat_map]. rewrite filter_app, IH. f_equal.
  unfold words, lines. rewrite (split_one _ _ X). cbn [flat_map]. now rewrite app_nil_r.
Qed.

Lemma doc_emit : forall c n text, doc_node text n -> sol_emit c n =
  [Tok "/**"] ++ flat_map (fun t => [Newline; Indent; Space; Tok "*"; Space; Flow t " *   "]) (split_on "010" text) ++ [Newline; Indent; Space; Tok "*/"].
Proof.
  intros c n text (T & X). rewrite (sol_at c n _ _ T eq_refl). unfold s_StructuredDocumentation. rewrite (get_str_plain n "text" _ eq_refl X). reflexivity.
Qed.

Theorem doc_text : forall g c n text st o st', doc_node text n -> exec g (sol_emit c n) st = Ok (o, st') ->
  (exists ls, doc_comment ls o /\ flat_map words ls = words text) /\ p_ind st' = p_ind st.
Proof.
  intros g c n text st o st' N H. rewrite (doc_emit c n text N) in H. cbn [app exec exec1] in H.
  apply and_print_ok in H. destruct H as (a & s & x & H1 & H & ->). apply write_token_shape in H1. destruct H1 as ((w & W & ->) & I1).
  destruct (doc_rows _ _ _ _ _ H) as (ls & D & E & I2). split; [|congruence]. exists ls. split; [|now rewrite E, words_lines].
  exists w, x. split; [exact W|]. split; [|exact D]. now rewrite app_assoc_s.
Qed.

Theorem doc_is_comment : forall g c n text st o st', doc_node text n -> ~ closes_comment text ->
  exec g (sol_emit c n) st = Ok (o, st') ->
  skipped o /\ exists ls, doc_comment ls o /\ flat_map words ls = words text.
Proof.
  intros g c n text st o st' N C H. destruct (doc_text _ _ _ _ _ _ _ N H) as ((ls & D & E) & _). split; [|now exists ls].
  apply (doc_skipped ls); [exact D|]. apply (closes_same _ _ E). now apply closes_false.
Qed.

(** ** The text of a declaration with documentation *)

Lemma documented_emit : forall c d n0 n, documented d n0 n ->
  sol_emit c n = sol_emit c d ++ [Newline; Indent] ++ sol_emit c n0.
Proof.
  intros c d n0 n (D & D0 & S & ty & T & Y). assert (Y0 : is_n n0 ty) by (unfold is_n, fld; rewrite <- S by discriminate; exact Y).
  assert (G : forall k, plain_key k = true -> k <> "documentation" -> kget n k = kget n0 k).
  { intros k P K. rewrite !kget_plain by exact P. exact (S k K). }
  destruct T as [<-|[<-|[<-|[<-|[]]]]]; rewrite (sol_at c n _ _ Y eq_refl), (sol_at c n0 _ _ Y0 eq_refl);
    unfold s_ContractDefinition, s_FunctionDefinition, s_ModifierDefinition, s_VariableDeclaration;
    unfold s_documentation, s_name, s_returns, tok_of, get_array, get_str, get_bool, sflag, arr_of, sub, get_bool, get_array;
    rewrite D, D0; unfold opt at 1; rewrite <- app_assoc;
    repeat match goal with |- context [kget n ?k] => rewrite (G k) by (reflexivity || discriminate) end;
    repeat match goal with |- context [oget n ?k] => rewrite (S k) by discriminate end;
    reflexivity.
Qed.

Lemma lexes_skip : forall s r, next s = Some (None, r) -> forall ts, lexes r ts <-> lexes s ts.
Proof.
  intros s r E ts. destruct s as [|c s]; [discriminate E|]. split; intros (fuel & H).
  - exists (Datatypes.S fuel). cbn [lex]. rewrite E, H. reflexivity.
  - destruct fuel as [|fuel]; [discriminate H|]. cbn [lex] in H. rewrite E in H. destruct (lex fuel r) as [l|] eqn:L; [|discriminate H].
    cbn in H. injection H as <-. now exists fuel.
Qed.

Lemma lexes_blank : forall w s, blank w -> forall ts, lexes s ts <-> lexes (String.append w s) ts.
Proof.
  induction w as [|b w IH]; intros s B ts; [reflexivity|]. destruct B as (B & W). rewrite (IH s W ts). cbn [String.append].
  apply lexes_skip. destruct B as [->| ->]; reflexivity.
Qed.

Theorem documented_text : forall g c d n0 n text st o st', documented d n0 n -> doc_node text d -> ~ closes_comment text ->
  exec g (sol_emit c n) st = Ok (o, st') ->
  exists comment s o0, exec g (sol_emit c n0) s = Ok (o0, st') /\ p_ind s = p_ind st /\ p_col s = (1 + indent_length g st)%N /\
    o = String.append comment (String.append nl (String.append (indent_string g st) o0)) /\
    (skipped comment /\ exists ls, doc_comment ls comment /\ flat_map words ls = words text) /\
    forall ts, lexes o ts <-> lexes o0 ts.
Proof.
  intros g c d n0 n text st o st' N D C H. rewrite (documented_emit c d n0 n N) in H.
  destruct (exec_app_ok _ _ _ _ _ _ H) as (o1 & s1 & x & H1 & H2 & ->).
  destruct (exec_app_ok _ _ _ _ _ _ H2) as (o2 & s2 & o0 & H3 & H4 & ->). clear H H2.
  destruct (doc_text _ _ _ _ _ _ _ D H1) as (_ & I1). pose proof (doc_is_comment _ _ _ _ _ _ _ D C H1) as K.
  cbn [exec exec1] in H3. rewrite <- and_print_assoc in H3. apply and_print_ok in H3. destruct H3 as (a & s & b & H3 & H5 & ->).
  rewrite newline_indent_ok in H3. injection H3 as <- <-. injection H5 as <- <-.
  assert (L : indent_length g s1 = indent_length g st) by (unfold indent_length; now rewrite I1).
  exists o1, (PState (p_row s1 + 1) (1 + indent_length g s1) (p_ind s1)), o0. split; [exact H4|]. split; [exact I1|].
  split; [cbn [p_col]; now rewrite L|]. unfold indent_string. rewrite <- L. split; [rewrite !app_assoc_s; reflexivity|].
  split; [exact K|]. intros ts. destruct K as ((w & oc & W & -> & K) & _). rewrite app_assoc_s, <- (lexes_blank w _ W ts).
  rewrite <- (lexes_skip _ _ (K _) ts), app_nil_r_s. symmetry. apply lexes_blank. split; [now right|apply blank_spaces].
Qed.
