(** Documentation of inline assembly: the text. *)
From Coq Require Import String Ascii List NArith ZArith Bool Lia.
From Verif Require Import Base Json JsonFacts Printer SolPrinter SpecPrinter SpecVyText SpecSolText SpecSolRead SpecDoc SpecAsmDoc
  TextFacts LayoutFacts FlowFacts EmitFacts SolEmit PrintFacts VyNoteExec SolText SolReadLex DocFacts VyDocFacts SolTextClaims.
Import ListNotations.
Open Scope string_scope.
Open Scope list_scope.

Lemma noted_emit : forall c text n0 n, noted_assembly text n0 n ->
  sol_emit c n = [Tok "///"; Space; Flow text "/// "; Newline; Indent] ++ sol_emit c n0.
Proof.
  intros c text n0 n (T & D & D0 & K).
  assert (T0 : is_n n0 "InlineAssembly") by (unfold is_n, fld in *; rewrite <- K by discriminate; exact T).
  rewrite (sol_at c n _ _ T eq_refl), (sol_at c n0 _ _ T0 eq_refl). unfold s_InlineAssembly.
  rewrite (get_str_plain n "documentation" _ eq_refl D), (get_str_absent n0 "documentation" eq_refl D0).
  unfold arr_of, sub. rewrite !K by discriminate. reflexivity.
Qed.

Lemma line_end : forall p rest, one_line p -> span (fun a => negb (Ascii.eqb a "010")) (String.append p (String "010" rest)) = (p, String "010" rest).
Proof.
  induction p as [|c p IH]; intros rest O; [reflexivity|]. unfold one_line in O. cbn [str_contains] in O. apply orb_false_iff in O. destruct O as (A & B).
  cbn [String.append]. change (span ?f (String c ?r)) with (if f c then let (a, b) := span f r in (String c a, b) else ("", String c r)).
  cbn beta. rewrite Ascii.eqb_sym, A. cbn [negb]. rewrite (IH rest B). reflexivity.
Qed.

Lemma slash_line : forall p w rest, one_line p -> blank w -> str_contains "010" w = true ->
  forall ts, lexes rest ts <-> lexes (String.append "/// " (String.append p (String.append w rest))) ts.
Proof.
  intros p w rest O W N.
  assert (X : exists w1 w2, w = String.append w1 (String "010" w2) /\ one_line w1 /\ blank w2).
  { clear p O rest. induction w as [|c w IH]; [discriminate N|]. destruct W as (C & W). destruct C as [->| ->].
    - destruct (IH W N) as (w1 & w2 & -> & A & B). exists (String " " w1), w2. now repeat split.
    - exists "", w. now repeat split. }
  destruct X as (w1 & w2 & -> & A & B). intros ts. rewrite app_assoc_s, <- (app_assoc_s p w1). cbn [String.append].
  assert (O1 : one_line (String.append "/// " (String.append p w1))).
  { unfold one_line in *. cbn [String.append str_contains]. rewrite str_contains_app, O, A. reflexivity. }
  assert (E : next (String.append "/// " (String.append (String.append p w1) (String "010" (String.append w2 rest)))) = Some (None, String "010" (String.append w2 rest))).
  { rewrite <- app_assoc_s. cbn [String.append].
    change (Some (@None token, snd (span (fun a => negb (Ascii.eqb a "010")) (String.append (String.append "/// " (String.append p w1)) (String "010" (String.append w2 rest))))) = Some (None, String "010" (String.append w2 rest))).
    rewrite line_end by exact O1. reflexivity. }
  rewrite <- (lexes_skip _ _ E ts). change (String "010" (String.append w2 rest)) with (String.append (String "010" w2) rest).
  apply lexes_blank. split; [now right|exact B].
Qed.

Lemma slash_lexes : forall ls s, pieces "/// " ls s -> Forall one_line ls -> forall w rest, blank w -> str_contains "010" w = true ->
  forall ts, lexes rest ts <-> lexes (String.append "/// " (String.append s (String.append w rest))) ts.
Proof.
  intros ls s H. induction H as [p|p w2 ps s W2 N2 H IH]; intros F w rest W N ts; inversion F as [|? ? O F']; subst.
  - now apply slash_line.
  - rewrite (IH F' w rest W N ts). rewrite !app_assoc_s. now apply slash_line.
Qed.

Theorem assembly_noted : forall oc c text n0 n st o st', noted_assembly text n0 n ->
  (p_ind st <= 36)%N -> p_col st = (1 + indent_length (std_geo oc) st)%N ->
  exec (std_geo oc) (sol_emit c n) st = Ok (o, st') ->
  exists comment s o0 ls, exec (std_geo oc) (sol_emit c n0) s = Ok (o0, st') /\ p_ind s = p_ind st /\ p_col s = p_col st /\
    o = String.append comment (String.append nl (String.append (indent_string (std_geo oc) st) o0)) /\
    slash_comment ls comment /\ flat_map words ls = words text /\
    forall ts, lexes o ts <-> lexes o0 ts.
Proof.
  intros oc c text n0 n st o st' D I C H. rewrite (noted_emit c text n0 n D) in H. set (g := std_geo oc) in *.
  cbn [app exec exec1] in H. apply and_print_ok in H. destruct H as (a & s1 & x & H1 & H & ->).
  assert (E1 : write_token g "///" st = Ok ("///", PState (p_row st) (p_col st + 3) (p_ind st))).
  { unfold write_token, usub. change (slen "///") with 3%N. change (g_page g) with 150%N. unfold indent_length in *. change (g_tab g) with 4%N in *.
    replace (150 <? p_col st)%N with false by (symmetry; apply N.ltb_ge; lia). unfold and_print at 1. cbn [bind].
    replace (150 <? 3)%N with false by reflexivity. replace (p_col st <=? 150)%N with true by (symmetry; apply N.leb_le; lia). cbn [bind].
    replace (150 - p_col st <? 3)%N with false by (symmetry; apply N.ltb_ge; lia). reflexivity. }
  rewrite E1 in H1. injection H1 as <- <-.
  apply and_print_ok in H. destruct H as (a & s2 & y & H2 & H & ->).
  assert (E2 : write_space g (PState (p_row st) (p_col st + 3) (p_ind st)) = Ok (" ", PState (p_row st) (p_col st + 3 + 1) (p_ind st))).
  { unfold write_space. cbn [p_col]. change (g_page g) with 150%N. unfold indent_length in *. change (g_tab g) with 4%N in *.
    replace (p_col st + 3 =? 150)%N with false by (symmetry; apply N.eqb_neq; lia). reflexivity. }
  rewrite E2 in H2. injection H2 as <- <-.
  apply and_print_ok in H. destruct H as (t & s3 & z & H3 & H & ->). destruct (write_flow_pieces _ _ _ _ _ _ _ H3) as (ls & P & O & W & J).
  rewrite <- and_print_assoc in H. apply and_print_ok in H. destruct H as (a & s4 & o0 & H4 & H & ->).
  rewrite newline_indent_ok in H4. injection H4 as <- <-. cbn [p_ind] in J.
  assert (L : indent_string g s3 = indent_string g st) by (unfold indent_string, indent_length; now rewrite J).
  assert (L2 : indent_length g s3 = indent_length g st) by (unfold indent_length; now rewrite J).
  exists (String.append "/// " t), (PState (p_row s3 + 1) (1 + indent_length g s3) (p_ind s3)), o0, ls.
  split; [exact H|]. split; [exact J|]. split; [cbn [p_col]; rewrite L2; now symmetry|].
  split; [rewrite L, !app_assoc_s; reflexivity|]. split; [exists t; now repeat split|]. split; [exact W|]. intros ts.
  change (String.append "///" (String.append " " (String.append t (String.append (String.append nl (indent_string g s3)) o0)))) with
    (String.append "/// " (String.append t (String.append (String.append nl (indent_string g s3)) o0))).
  symmetry. apply (slash_lexes _ _ P O); [apply blank_lead1|reflexivity].
Qed.

(** A case. *)
Definition bare_asm : json := nd "InlineAssembly" [("AST", nd "YulBlock" [("statements", JArr [])])].
Definition noted_asm (text : string) : json := nd "InlineAssembly" [("documentation", JStr text); ("AST", nd "YulBlock" [("statements", JArr [])])].

Lemma noted_asm_noted : forall text, noted_assembly text bare_asm (noted_asm text).
Proof.
  intros text. split; [reflexivity|]. split; [reflexivity|]. split; [reflexivity|].
  intros k K. unfold noted_asm, bare_asm, nd, oget. cbn [assoc]. destruct (k =?s "nodeType"); [reflexivity|].
  destruct (k =?s "documentation") eqn:E; [apply String.eqb_eq in E; congruence|reflexivity].
Qed.
