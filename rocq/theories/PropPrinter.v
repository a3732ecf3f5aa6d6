(** C10, C11, C43-C48, C61, C62: the pretty-printer.  [g] is the geometry of a
    printer (tab width, page width), [st] its row, column and indentation; what
    a node printer asks the layout engine to do is a list of requests ([cmd]),
    and [exec g l st] is the text written for the requests [l], with the new
    state. *)
From Coq Require Import String Ascii List NArith ZArith Bool.
From Verif Require Import Base Json OpCommon SolMutators VyMutators Printer VyPrinter SolPrinter SpecPrinter Samples
  TextFacts LayoutFacts FlowFacts EmitFacts VyEmit SolEmit PrintFacts PrintClaims.
Import ListNotations.
Open Scope string_scope.
Open Scope list_scope.

(** C10.  The full statement is about every geometry and column; it fails when
    the column right after the marker is the page width. *)
Theorem C10_text_comments_stay_comments_refuted :
  exists g c n text st o st',
  oget n "nodeType" = Some (JStr "Comment") /\ oget n "text" = Some (JStr text) /\ oget n "value" = None /\
  exec g (sol_emit c n) st = Ok (o, st') /\ ~ Forall (marked "//") (lines o).
Proof. exact comments_stay_refuted. Qed.
Print Assumptions C10_text_comments_stay_comments_refuted.

(** It holds when the line has room for the marker and one blank. *)
Theorem C10_solidity_text_comments_stay_comments_partial :
  forall g c n text st o st',
  oget n "nodeType" = Some (JStr "Comment") -> oget n "text" = Some (JStr text) -> oget n "value" = None ->
  (p_col st + slen "//" < g_page g)%N ->
  exec g (sol_emit c n) st = Ok (o, st') -> Forall (marked "//") (lines o).
Proof. exact sol_text_comment_lines. Qed.
Print Assumptions C10_solidity_text_comments_stay_comments_partial.

Theorem C10_vyper_text_comments_stay_comments_partial :
  forall g c n text st o st',
  oget n "ast_type" = Some (JStr "Comment") -> oget n "value" = Some (JStr text) ->
  (p_col st + slen "#" < g_page g)%N ->
  exec g (vy_emit c n) st = Ok (o, st') -> Forall (marked "#") (lines o).
Proof. exact vy_text_comment_lines. Qed.
Print Assumptions C10_vyper_text_comments_stay_comments_partial.

Example C10_example :
  exec (Geo 2 20 true) (sol_emit sol_default (sol_comment ("one two" ++ nl ++ "three four five six"))) fresh =
  Ok (fold_right String.append "" ["// one two three "; nl; "// four five six"], PState 2 17 0).
Proof. vm_compute. reflexivity. Qed.

(** C61.  At the geometry and the places the crate uses, always. *)
Theorem C61_solidity_comment_at_line_start :
  forall oc c n text st o st',
  oget n "nodeType" = Some (JStr "Comment") -> oget n "text" = Some (JStr text) -> oget n "value" = None ->
  (p_ind st <= max_indent (std_geo oc))%N -> (p_col st <= indent_length (std_geo oc) st + 1)%N ->
  exec (std_geo oc) (sol_emit c n) st = Ok (o, st') -> Forall (marked "//") (lines o).
Proof. exact sol_comment_at_start. Qed.
Print Assumptions C61_solidity_comment_at_line_start.

Theorem C61_vyper_comment_at_line_start :
  forall oc c n text st o st',
  oget n "ast_type" = Some (JStr "Comment") -> oget n "value" = Some (JStr text) ->
  (p_ind st <= max_indent (std_geo oc))%N -> (p_col st <= indent_length (std_geo oc) st + 1)%N ->
  exec (std_geo oc) (vy_emit c n) st = Ok (o, st') -> Forall (marked "#") (lines o).
Proof. exact vy_comment_at_start. Qed.
Print Assumptions C61_vyper_comment_at_line_start.

Example C61_example :
  (p_ind deep_state <= max_indent (std_geo true))%N /\ (p_col deep_state = indent_length (std_geo true) deep_state + 1)%N /\
  exec (std_geo true) (vy_emit (vy_default true (fun _ => "")) (vy_comment "ab cd efgh ij")) deep_state =
  Ok (fold_right String.append "" ["# ab cd "; nl; repeated " " 136; "# efgh ij"], PState 2 146 34).
Proof. split; [discriminate|]. split; [reflexivity|]. vm_compute. reflexivity. Qed.

(** C11.  A deleted statement can leave code behind. *)
Theorem C11_deleted_statement_is_commented_refuted :
  exists g c stmt st o st',
  oget stmt "nodeType" = Some (JStr "ExpressionStatement") /\
  exec g (sol_emit c (sol_comment_node stmt)) st = Ok (o, st') /\ ~ Forall (marked "//") (lines o).
Proof. exact deleted_refuted. Qed.
Print Assumptions C11_deleted_statement_is_commented_refuted.

(** It is commented out when its text is asked for as one line, and fits. *)
Theorem C11_deleted_statement_is_commented_partial :
  forall g c stmt st o st',
  Forall flat1 (sol_emit c stmt) -> (p_col st + slen "// " + width (sol_emit c stmt) <= g_page g)%N ->
  exec g (sol_emit c (sol_comment_node stmt)) st = Ok (o, st') -> Forall (marked "//") (lines o).
Proof. exact deleted_one_line. Qed.
Print Assumptions C11_deleted_statement_is_commented_partial.

Example C11_example : let stmt := s_stmt 5 (s_assign 6 "uint256" (s_ident 7 "x") sum_ab) in
  Forall flat1 (sol_emit sol_default stmt) /\
  exec (std_geo true) (sol_emit sol_default (sol_comment_node stmt)) fresh = Ok ("// x = a + b;", PState 1 14 0).
Proof. split; [vm_compute; repeat constructor|vm_compute; reflexivity]. Qed.

(** What is left behind: [f({a: 1});] becomes a comment followed by code. *)
Example C11_left_behind :
  exec (std_geo true) (sol_emit sol_default (sol_comment_node named_call)) fresh =
  Ok (fold_right String.append "" ["// f({"; nl; "    a: 1"; nl; "});"], PState 3 4 0).
Proof. vm_compute. reflexivity. Qed.

(** C62.  In Vyper a deleted statement is commented out entirely, and the
    comment has the words of the statement. *)
Theorem C62_vyper_deleted_statement_is_commented :
  forall g c stmt st o st', is_object stmt = true ->
  (p_col st + slen "#" < g_page g)%N ->
  exec g (vy_emit c (vy_comment_node stmt)) st = Ok (o, st') ->
  Forall (marked "#") (lines o) /\
  exists text st1 ps, exec (std_geo (g_oc g)) (vy_emit c stmt) fresh = Ok (text, st1) /\
    (exists out, o = String.append "# " out /\ pieces "# " ps out) /\ flat_map words ps = words text.
Proof. exact vy_deleted. Qed.
Print Assumptions C62_vyper_deleted_statement_is_commented.

Example C62_example :
  exec (std_geo true) (vy_emit (vy_default true (fun _ => "")) (vy_comment_node two_lines)) fresh =
  Ok ("# if x: x = 1 else: x = 2", PState 1 26 0).
Proof. vm_compute. reflexivity. Qed.

(** C43. *)
Theorem C43_wrapping_keeps_tokens :
  forall g l st, plain l -> (0 < g_page g)%N ->
  exists o st', exec g l st = Ok (o, st') /\ interleaved (tokens l) o /\
    strip o = fold_right String.append "" (map strip (tokens l)).
Proof. exact wrapping_keeps_tokens. Qed.
Print Assumptions C43_wrapping_keeps_tokens.

Example C43_example :
  plain [Tok "abc"; Space; Tok "de f"] /\
  exec (Geo 2 7 true) [Tok "abc"; Space; Tok "de f"] fresh =
  Ok (String.append "abc " (String.append nl "de f"), PState 2 5 0).
Proof. split; [repeat constructor|vm_compute; reflexivity]. Qed.

(** C44. *)
Theorem C44_lines_respect_page_width :
  forall g l o st', fits g true 0 l -> (1 <= g_page g)%N -> exec g l fresh = Ok (o, st') ->
  Forall (fun ln => (slen ln < g_page g)%N) (lines o).
Proof. exact widths_from_start. Qed.
Print Assumptions C44_lines_respect_page_width.

(** From any state: [before] is what is already on the line. *)
Theorem C44_lines_respect_page_width_from :
  forall g l st before o st', fits g (p_col st =? 1)%N (p_ind st) l ->
  one_line before -> (slen before + 1 = p_col st)%N -> (p_col st <= g_page g)%N ->
  exec g l st = Ok (o, st') ->
  Forall (fun ln => (slen ln < g_page g)%N) (lines (String.append before o)).
Proof. exact widths_from_state. Qed.
Print Assumptions C44_lines_respect_page_width_from.

Definition small_block : list cmd :=
  [Tok "if"; Tok "("; Tok "c"; Tok ")"; Space; Tok "{"; Inc; Newline; Indent; Tok "xyz"; Space; Tok "="; Space; Tok "f()"; Tok ";";
   Dec; Newline; Indent; Tok "}"].
Example C44_example : fits (Geo 2 9 true) true 0 small_block /\
  exec (Geo 2 9 true) small_block fresh =
  Ok (fold_right String.append "" ["if(c) {"; nl; "  xyz = "; nl; "  f();"; nl; "}"], PState 4 2 0).
Proof. split; [vm_compute; repeat split|vm_compute; reflexivity]. Qed.

(** C45. *)
Theorem C45_solidity_indentation_restored :
  forall g c n st o st', (p_ind st + climb 0 (sol_emit c n) <= max_indent g)%N ->
  exec g (sol_emit c n) st = Ok (o, st') -> p_ind st' = p_ind st.
Proof. exact (fun g c n st o st' H E => balanced_indent g (sol_emit c n) st o st' (sol_emit_balanced c n) H E). Qed.
Print Assumptions C45_solidity_indentation_restored.

Theorem C45_vyper_indentation_restored :
  forall g c n st o st', (p_ind st + climb 0 (vy_emit c n) <= max_indent g)%N ->
  exec g (vy_emit c n) st = Ok (o, st') -> p_ind st' = p_ind st.
Proof. exact (fun g c n st o st' H E => balanced_indent g (vy_emit c n) st o st' (vy_emit_balanced c n) H E). Qed.
Print Assumptions C45_vyper_indentation_restored.

Example C45_example : climb 0 (sol_emit sol_default ex_unit) = 2%N /\
  exists o st', exec (std_geo true) (sol_emit sol_default ex_unit) fresh = Ok (o, st') /\ p_ind st' = 0%N.
Proof. split; [vm_compute; reflexivity|]. eexists _, _. split; vm_compute; reflexivity. Qed.

(** The condition is needed: at the maximum the way back is one level too long. *)
Example C45_saturation :
  exists o st', exec (Geo 4 8 true) (sol_emit sol_default ex_unit) (PState 1 1 1) = Ok (o, st') /\ p_ind st' = 0%N.
Proof. eexists _, _. split; vm_compute; reflexivity. Qed.

(** C46. *)
Theorem C46_flowed_text_keeps_words :
  forall g text next st o st', exec g [Flow text next] st = Ok (o, st') ->
  exists ps, pieces next ps o /\ Forall one_line ps /\ flat_map words ps = words text.
Proof. exact flow_words. Qed.
Print Assumptions C46_flowed_text_keeps_words.

Example C46_example :
  exec (Geo 4 20 true) [Flow "the quick  brown fox jumps" "// "] fresh =
  Ok (fold_right String.append "" ["the quick brown fox"; nl; "// jumps"], PState 2 9 0).
Proof. vm_compute. reflexivity. Qed.

(** C47.  A word longer than a line sends the printer into an endless
    recursion, with the crate's geometry, at the start of a line. *)
Theorem C47_flowing_stops_refuted :
  exists text, forall oc fuel, write_flow fuel (std_geo oc) text "// " fresh = Diverge.
Proof. exact (ex_intro _ long_word long_word_loops). Qed.
Print Assumptions C47_flowing_stops_refuted.

(** It stops when every word fits on a continuation line. *)
Theorem C47_flowing_stops_partial :
  forall g text next st,
  (p_col st <= g_page g)%N -> (1 + indent_length g st + slen next + 2 < g_page g)%N ->
  (forall w, In w (words text) -> (1 + indent_length g st + slen next + slen w + 2 <= g_page g)%N) ->
  exists fuel o st', write_flow fuel g text next st = Ok (o, st').
Proof. exact flowing_stops. Qed.
Print Assumptions C47_flowing_stops_partial.

Example C47_example : forall w, In w (words "aaaa bbb  cc") ->
  (1 + indent_length (Geo 2 12 true) fresh + slen "// " + slen w + 2 <= g_page (Geo 2 12 true))%N.
Proof. intros w H. vm_compute in H. destruct H as [<-|[<-|[<-|[]]]]; vm_compute; discriminate. Qed.

(** C48. *)
Theorem C48_solidity_ignores_bookkeeping :
  forall n n', same_but solidity_bookkeeping n n' ->
  forall g c st, exec g (sol_emit c n) st = exec g (sol_emit c n') st.
Proof. exact (fun n n' S g c st => f_equal (fun l => exec g l st) (sol_emit_ignores c n n' S)). Qed.
Print Assumptions C48_solidity_ignores_bookkeeping.

Theorem C48_vyper_ignores_bookkeeping :
  forall n n', same_but vyper_bookkeeping n n' ->
  forall g c st, exec g (vy_emit c n) st = exec g (vy_emit c n') st.
Proof. exact (fun n n' S g c st => f_equal (fun l => exec g l st) (vy_emit_ignores c n n' S)). Qed.
Print Assumptions C48_vyper_ignores_bookkeeping.

Example C48_example :
  same_but solidity_bookkeeping (s_binop 1 "+" (s_ident 2 "a") (s_ident 3 "b")) (s_binop 7 "+" (s_ident 9 "a") (s_ident 3 "b")) /\
  same_but vyper_bookkeeping (v_name 1 "a") (v_name 2 "a").
Proof. exact bookkeeping_example. Qed.
