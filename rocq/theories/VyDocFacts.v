(** Doc strings of Vyper: the text of the string, of a function and of a module
    with one. *)
From Coq Require Import String Ascii List NArith ZArith Bool Lia.
From Verif Require Import Base Json JsonFacts Printer VyPrinter SpecPrinter SpecVyText SpecVyDoc
  TextFacts LayoutFacts FlowFacts EmitFacts VyEmit PrintFacts VyNoteExec VyText DocFacts DocWhole.
Import ListNotations.
Open Scope string_scope.
Open Scope list_scope.

(** ** A scan of the text that sees only its words *)

(** Whether a backslash or three quotes in a row have been seen, the quotes just
    read, whether the last visible character is a quote. *)
Record seen : Type := Seen { bad : bool; run : nat; lastq : bool }.
Definition calm (x : seen) : seen := Seen (bad x) 0 (lastq x).
Definition look (x : seen) (c : ascii) : seen :=
  if Ascii.eqb c " " || Ascii.eqb c "010" then calm x
  else if Ascii.eqb c """" then Seen (bad x || Nat.leb 2 (run x)) (Datatypes.S (run x)) true
  else Seen (bad x || Ascii.eqb c "\") 0 false.
Fixpoint scan (x : seen) (s : string) : seen :=
  match s with EmptyString => x | String c s => scan (look x c) s end.
Definition clear : seen := Seen false 0 false.

Lemma look_blank : forall x c, blank_char c -> look x c = calm x.
Proof. intros x c [->| ->]; reflexivity. Qed.

Lemma scan_split : forall c s x, blank_char c -> calm (scan x s) = fold_left (fun x w => calm (scan x w)) (split_on c s) x.
Proof.
  intros c s x B. revert x. induction s as [|d s IH]; intros x; [reflexivity|]. cbn [scan split_on]. destruct (Ascii.eqb c d) eqn:E.
  - apply Ascii.eqb_eq in E. subst d. rewrite (look_blank x c B). cbn [fold_left scan]. apply IH.
  - rewrite IH. destruct (split_on c s) as [|y l] eqn:Q; [destruct (split_nonempty c s Q)|]. reflexivity.
Qed.

Lemma fold_flat : forall A B (f : B -> A -> B) X (h : X -> list A) l b,
  fold_left f (flat_map h l) b = fold_left (fun b x => fold_left f (h x) b) l b.
Proof. intros A B f X h l. induction l as [|x l IH]; intros b; [reflexivity|]. cbn [flat_map fold_left]. now rewrite fold_left_app, IH. Qed.

Lemma fold_ext : forall A B (f h : B -> A -> B) l b, (forall b a, f b a = h b a) -> fold_left f l b = fold_left h l b.
Proof. intros A B f h l b H. revert b. induction l as [|x l IH]; intros b; [reflexivity|]. cbn [fold_left]. now rewrite H, IH. Qed.

Lemma fold_full : forall l x, calm x = x ->
  fold_left (fun x w => calm (scan x w)) (filter (fun w => negb (is_empty_str w)) l) x = fold_left (fun x w => calm (scan x w)) l x.
Proof.
  induction l as [|w l IH]; intros x X; [reflexivity|]. cbn [filter fold_left]. destruct w as [|a w].
  - cbn [is_empty_str negb scan]. rewrite X. now apply IH.
  - cbn [is_empty_str negb fold_left]. now apply IH.
Qed.

Lemma scan_words : forall s, calm (scan clear s) = fold_left (fun x w => calm (scan x w)) (words s) clear.
Proof.
  intros s. unfold words, lines. rewrite fold_full by reflexivity. rewrite fold_flat, (scan_split "010") by (right; reflexivity).
  apply fold_ext. intros x l. apply scan_split. now left.
Qed.

Definition fine (s : string) : bool := negb (bad (scan clear s)) && negb (lastq (scan clear s)).

Lemma fine_words : forall a b, words a = words b -> fine a = fine b.
Proof.
  intros a b E. pose proof (scan_words a) as A. rewrite E, <- scan_words in A. unfold fine.
  change (bad (scan clear a)) with (bad (calm (scan clear a))). change (lastq (scan clear a)) with (lastq (calm (scan clear a))).
  rewrite A. reflexivity.
Qed.

(** ** What the scan finds *)

Fixpoint quotes (k : nat) : string := match k with O => "" | Datatypes.S k => String """" (quotes k) end.

Lemma quotes_more : forall k s, String.append (quotes k) (String """" s) = String.append (quotes (Datatypes.S k)) s.
Proof. induction k as [|k IH]; intros s; [reflexivity|]. cbn [quotes String.append] in *. now rewrite IH. Qed.

Lemma bad_found : forall s x, bad x = false -> bad (scan x s) = true ->
  str_contains "\" s = true \/ exists a b, String.append (quotes (run x)) s = String.append a (String.append quotes3 b).
Proof.
  induction s as [|c s IH]; intros x X H; [cbn in H; congruence|]. cbn [scan] in H. unfold look in H.
  destruct (Ascii.eqb c " " || Ascii.eqb c "010") eqn:B.
  - destruct (IH (calm x) X H) as [K|(a & b & K)]; [left; cbn [str_contains]; rewrite K; apply orb_true_r|]. right.
    cbn [run calm quotes String.append] in K. exists (String.append (quotes (run x)) (String c a)), b. rewrite K, app_assoc_s. reflexivity.
  - destruct (Ascii.eqb c """") eqn:Q.
    + apply Ascii.eqb_eq in Q. subst c. rewrite X in H. cbn [orb] in H. destruct (Nat.leb 2 (run x)) eqn:L.
      * right. apply Nat.leb_le in L. destruct (run x) as [|[|k]]; [lia|lia|]. rewrite quotes_more. cbn [quotes].
        exists "", (String.append (quotes k) s). reflexivity.
      * destruct (IH (Seen false (Datatypes.S (run x)) true) eq_refl H) as [K|(a & b & K)].
        { left. cbn [str_contains]. rewrite K. apply orb_true_r. }
        right. rewrite quotes_more. exists a, b. exact K.
    + destruct (Ascii.eqb c "\") eqn:S.
      * left. apply Ascii.eqb_eq in S. subst c. reflexivity.
      * rewrite X in H. cbn [orb] in H. destruct (IH (Seen false 0 false) eq_refl H) as [K|(a & b & K)].
        { left. cbn [str_contains]. rewrite K. apply orb_true_r. }
        right. cbn [run quotes String.append] in K. exists (String.append (quotes (run x)) (String c a)), b. rewrite K, app_assoc_s. reflexivity.
Qed.

Lemma last_found : forall s x, lastq (scan x s) = true ->
  (blank s /\ lastq x = true) \/ exists a b, blank b /\ s = String.append a (String """" b).
Proof.
  induction s as [|c s IH]; intros x H; [left; now split|]. cbn [scan] in H.
  destruct (IH _ H) as [(B & L)|(a & b & B & ->)]; [|right; now exists (String c a), b].
  unfold look in L. destruct (Ascii.eqb c " " || Ascii.eqb c "010") eqn:E.
  - left. split; [|exact L]. split; [|exact B]. apply orb_true_iff in E. destruct E as [E|E]; apply Ascii.eqb_eq in E; subst c; [now left|now right].
  - destruct (Ascii.eqb c """") eqn:Q; [|discriminate L]. apply Ascii.eqb_eq in Q. subst c. right. now exists "", s.
Qed.

Lemma plain_fine : forall s, plain_doc s -> fine s = true.
Proof.
  intros s (A & B & C). unfold fine. apply andb_true_iff. split; apply negb_true_iff.
  - destruct (bad (scan clear s)) eqn:E; [|reflexivity]. destruct (bad_found s clear eq_refl E) as [K|(a & b & K)]; [congruence|]. destruct (B a b K).
  - destruct (lastq (scan clear s)) eqn:E; [|reflexivity]. destruct (last_found s clear E) as [(_ & K)|(a & b & K & L)]; [discriminate K|]. destruct (C a b K L).
Qed.

Lemma bad_stays : forall s x, bad x = true -> bad (scan x s) = true.
Proof.
  induction s as [|c s IH]; intros x X; [exact X|]. cbn [scan]. apply IH. unfold look.
  destruct (Ascii.eqb c " " || Ascii.eqb c "010"); [exact X|]. destruct (Ascii.eqb c """"); cbn [bad]; now rewrite X.
Qed.

Lemma fine_step : forall c s x, bad (scan x (String c s)) = false -> Ascii.eqb c "\" = false.
Proof.
  intros c s x H. destruct (Ascii.eqb c "\") eqn:E; [|reflexivity]. apply Ascii.eqb_eq in E. subst c. cbn [scan] in H.
  rewrite bad_stays in H; [discriminate H|]. cbn. apply orb_true_r.
Qed.

Lemma fine_slash : forall s x, bad (scan x s) = false -> str_contains "\" s = false.
Proof.
  induction s as [|c s IH]; intros x H; [reflexivity|]. pose proof (fine_step _ _ _ H) as E. cbn [scan] in H.
  cbn [str_contains]. rewrite (IH _ H). rewrite Ascii.eqb_sym, E. reflexivity.
Qed.

Lemma upto_step : forall a b c r, Ascii.eqb a "\" = false -> (Ascii.eqb a """" && Ascii.eqb b """" && Ascii.eqb c """") = false ->
  upto_quotes (String a (String b (String c r))) = option_map (fun x => (String a (fst x), snd x)) (upto_quotes (String b (String c r))).
Proof.
  intros a b c r A B.
  change (upto_quotes (String a (String b (String c r)))) with
    (if Ascii.eqb a "\" then option_map (fun x => (String a (String b (fst x)), snd x)) (upto_quotes (String c r))
     else if Ascii.eqb a """" && Ascii.eqb b """" && Ascii.eqb c """" then Some ("", r)
     else option_map (fun x => (String a (fst x), snd x)) (upto_quotes (String b (String c r)))).
  now rewrite A, B.
Qed.

Lemma not_three : forall a s x, bad (scan x (String a s)) = false -> lastq (scan x (String a s)) = false ->
  forall rest, exists b c r, String.append s (String.append quotes3 rest) = String b (String c r) /\
    (Ascii.eqb a """" && Ascii.eqb b """" && Ascii.eqb c """") = false.
Proof.
  intros a s x B L rest. destruct (Ascii.eqb a """") eqn:A.
  2:{ destruct s as [|b [|c s]]; cbn [String.append quotes3]; do 3 eexists; (split; reflexivity). }
  apply Ascii.eqb_eq in A. subst a. destruct s as [|b s]; [discriminate L|]. destruct (Ascii.eqb b """") eqn:E.
  2:{ destruct s as [|c s]; cbn [String.append quotes3]; do 3 eexists; (split; [reflexivity|]); now rewrite E. }
  apply Ascii.eqb_eq in E. subst b. destruct s as [|c s]; [discriminate L|]. cbn [String.append]. do 3 eexists. split; [reflexivity|].
  destruct (Ascii.eqb c """") eqn:F; [|reflexivity]. apply Ascii.eqb_eq in F. subst c. exfalso.
  cbn [scan] in B. rewrite bad_stays in B; [discriminate B|]. cbn [look Ascii.eqb Bool.eqb orb bad run]. cbn. apply orb_true_r.
Qed.

Lemma upto_found : forall s x rest, bad (scan x s) = false -> lastq (scan x s) = false ->
  upto_quotes (String.append s (String.append quotes3 rest)) = Some (s, rest).
Proof.
  induction s as [|a s IH]; intros x rest B L; [reflexivity|]. destruct (not_three _ _ _ B L rest) as (b & c & r & E & T).
  pose proof (fine_step _ _ _ B) as A. specialize (IH (look x a) rest B L). cbn [String.append]. rewrite E in *.
  rewrite upto_step by assumption. now rewrite IH.
Qed.

Lemma fine_triple : forall s, fine s = true -> triple_string s (String.append quotes3 (String.append s quotes3)).
Proof.
  intros s F. apply andb_true_iff in F. destruct F as (B & L). apply negb_true_iff in B, L.
  exists (String.append s quotes3). split; [reflexivity|]. split; [exact (fine_slash _ _ B)|]. intros rest. rewrite app_assoc_s. exact (upto_found _ _ _ B L).
Qed.

(** ** The text of the string *)

Lemma words_apart : forall p w s, blank w -> w <> "" -> words (String.append p (String.append w s)) = words p ++ words s.
Proof.
  intros p w s W N. destruct w as [|c w]; [congruence|]. destruct W as (C & W). cbn [String.append].
  rewrite <- (words_blank w s W). rewrite !words_unline.
  assert (U : forall a b, unline (String.append a (String c b)) = String.append (unline a) (String " " (unline b))).
  { intros a b. induction a as [|d a IH]; cbn [String.append unline]; [destruct C as [->| ->]; reflexivity|now rewrite IH]. }
  rewrite U. apply pwords_app_space.
Qed.

Lemma words_pieces : forall ps s, pieces "" ps s -> words s = flat_map words ps.
Proof.
  intros ps s H. induction H as [p|p w ps s W N H IH]; [cbn [flat_map]; now rewrite app_nil_r|].
  cbn [flat_map String.append]. rewrite words_apart; [now rewrite IH|exact W|]. destruct w; [discriminate N|discriminate].
Qed.

Lemma words_tail : forall s u, blank u -> words (String.append s u) = words s.
Proof.
  intros s u U. destruct u as [|c u]; [now rewrite app_nil_r_s|]. rewrite <- (app_nil_r_s (String c u)), words_apart by (exact U || discriminate).
  apply app_nil_r.
Qed.

Lemma margin_fits : forall g st, (0 < g_page g)%N -> (p_ind st <= max_indent g)%N -> (1 + indent_length g st <= g_page g)%N.
Proof.
  intros g st P I. unfold indent_length, max_indent in *. destruct (g_tab g =? 0)%N eqn:T.
  - apply N.eqb_eq in T. rewrite T, N.mul_0_r. lia.
  - apply N.eqb_neq in T. pose proof (N.mul_div_le (g_page g) (g_tab g) T) as D.
    destruct (g_page g / g_tab g)%N as [|q] eqn:Q; [replace (p_ind st) with 0%N by lia; lia|].
    assert (H : ((p_ind st + 1) * g_tab g <= g_tab g * N.pos q)%N) by (rewrite (N.mul_comm (g_tab g)); apply N.mul_le_mono_r; lia).
    rewrite N.mul_add_distr_r in H. lia.
Qed.

Lemma token_margin : forall g s st o st', (0 < g_page g)%N -> (p_ind st <= max_indent g)%N -> p_col st = (1 + indent_length g st)%N ->
  write_token g s st = Ok (o, st') ->
  exists u, o = String.append u s /\ (u = "" \/ exists v, blank v /\ u = String.append v (String "010" (indent_string g st))) /\ p_ind st' = p_ind st.
Proof.
  intros g s st o st' P I C H. destruct (write_token_ok g s st P) as (row & E). rewrite E in H. injection H as <- <-.
  eexists. split; [reflexivity|]. split; [|reflexivity]. unfold token_lead.
  replace (g_page g <? p_col st)%N with false by (symmetry; apply N.ltb_ge; rewrite C; now apply margin_fits).
  assert (R : String.append nl (indent_string g st) = "" \/ (exists v, blank v /\ String.append nl (indent_string g st) = String.append v (String "010" (indent_string g st)))).
  { right. exists "". split; [exact Logic.I|reflexivity]. }
  repeat match goal with |- context [if ?b then _ else _] => destruct b end; cbn [fst]; first [exact R|now left].
Qed.

Lemma doc_string_text : forall g text st o st', (0 < g_page g)%N -> (p_ind st <= max_indent g)%N -> p_col st = (1 + indent_length g st)%N ->
  plain_doc text -> exec g (v_doc_string text) st = Ok (o, st') ->
  doc_literal (indent_string g st) text o /\ p_ind st' = p_ind st.
Proof.
  intros g text st o st' P I C D H. pose proof (plain_fine _ D) as F. unfold v_doc_string in H. destruct (str_contains "010" text) eqn:N.
  - cbn [exec exec1] in H. apply and_print_ok in H. destruct H as (a & s1 & b & H & K & ->). injection K as <- <-.
    destruct (token_margin _ _ _ _ _ P I C H) as (u & -> & U & J). split; [|exact J].
    exists u, text, (triple_quoted text). split; [now rewrite app_nil_r_s|]. split; [now apply fine_triple|]. now split.
  - cbn [exec exec1] in H. apply and_print_ok in H. destruct H as (a & s1 & b & H & K & ->).
    destruct (token_margin _ _ _ _ _ P I C H) as (u & -> & U & J).
    apply and_print_ok in K. destruct K as (a2 & s2 & b2 & K & L & ->).
    destruct (write_flow_pieces _ _ _ _ _ _ _ K) as (ps & PS & _ & W & J2).
    apply and_print_ok in L. destruct L as (a3 & s3 & b3 & L & M & ->). injection M as <- <-.
    destruct (write_token_shape _ _ _ _ _ L) as ((w & B & ->) & J3). split; [|congruence].
    assert (E : words (String.append a2 w) = words text) by (rewrite words_tail by exact B; rewrite (words_pieces _ _ PS); exact W).
    exists u, (String.append a2 w), (String.append quotes3 (String.append (String.append a2 w) quotes3)).
    split; [rewrite app_nil_r_s, !app_assoc_s; reflexivity|]. split; [apply fine_triple; rewrite (fine_words _ _ E); exact F|].
    split; [exact U|]. split; [exact E|]. intros Y. congruence.
Qed.

(** ** A function and a module with a doc string *)

Lemma forget_exec : forall g l a b, same a b -> forget (exec g l a) = forget (exec g l b).
Proof.
  intros g l. induction l as [|x l IH]; intros a b S; [now apply forget_skip|]. cbn [exec]. apply forget_and_print; [now apply forget_exec1|exact IH].
Qed.

Lemma exec_app : forall g a b st, exec g (a ++ b) st = exec g a st ;;; exec g b.
Proof.
  intros g a b. induction a as [|x a IH]; intros st; cbn [app exec].
  - unfold and_print. cbn [bind]. destruct (exec g b st) as [(o, s)| | |]; reflexivity.
  - unfold and_print in *. destruct (exec1 g x st) as [(o, s)| | |]; cbn [bind]; try reflexivity. rewrite IH.
    destruct (exec g a s) as [(o2, s2)| | |]; cbn [bind]; try reflexivity.
    destruct (exec g b s2) as [(o3, s3)| | |]; cbn [bind]; try reflexivity. now rewrite app_assoc_s.
Qed.

(** A function up to the colon. *)
Definition fun_head (c : vctx) (r : vctx -> json -> list cmd) (n : json) : list cmd :=
  opt (arr_of n "decorator_list") (fun l => v_decorators (r c) l ++ when (not_empty l) [Indent]) ++
  [Tok "def"; Space] ++
  opt (get_str n "name") (fun s => [Tok s]) ++
  [Tok "("] ++ sub (r c) n "args" ++ [Tok ")"] ++
  opt (oget n "returns") (fun v =>
    if is_null v then []
    else [Space; Tok "->"; Space] ++ r (set_parens c true) v) ++
  [Tok ":"].

Lemma with_doc_emit : forall c text n0 n b bs, vc_decl_form c = false -> with_doc_string "FunctionDef" text n0 n -> fld n "body" (JArr (b :: bs)) ->
  exists pre post,
    vy_emit c n0 = pre ++ [Newline; Inc; Indent] ++ post /\
    vy_emit c n = pre ++ [Inc; Newline; Indent] ++ v_doc_string text ++ [Newline; Dec; Newline; Inc; Indent] ++ post.
Proof.
  intros c text n0 n b bs C (T & M & K & d & D & V) B.
  assert (T0 : is_a n0 "FunctionDef") by (unfold is_a, fld in *; rewrite <- K by discriminate; exact T).
  assert (B0 : fld n0 "body" (JArr (b :: bs))) by (unfold fld in *; rewrite <- K by discriminate; exact B).
  assert (X : is_null d = false) by (destruct d; try reflexivity; discriminate V).
  exists (fun_head c vy_emit n0), (vy_emit c b ++ match bs with [] => [] | _ :: _ => [Newline] end ++ v_indented (vy_emit c) bs ++ [Dec]).
  assert (H : fun_head c vy_emit n = fun_head c vy_emit n0).
  { unfold fun_head, arr_of, sub, get_str. rewrite !(kget_plain _ "name" eq_refl), !K by discriminate. reflexivity. }
  rewrite <- H at 2. rewrite (vy_at c n _ _ T eq_refl), (vy_at c n0 _ _ T0 eq_refl). unfold v_FunctionDef. rewrite C.
  rewrite (arr_of_fld n "body" _ B), (arr_of_fld n0 "body" _ B0). cbn [opt].
  assert (M0 : forall f, opt (oget n0 "doc_string") (fun v => if is_null v then [] else f v) = []) by (intros f; destruct M as [-> | ->]; reflexivity).
  rewrite M0. unfold fld in D. rewrite D. cbn [opt]. rewrite X, (get_str_plain d "value" _ eq_refl V). cbn [opt].
  unfold v_indented. cbn [each]. unfold fun_head. split; rewrite <- ?app_assoc; cbn [app]; rewrite <- ?app_assoc; cbn [app]; reflexivity.
Qed.

Lemma inc_max : forall g st, (p_ind (increase_indent g st) <= max_indent g)%N.
Proof. intros g st. unfold increase_indent. cbn [p_ind]. destruct (N.leb_spec (max_indent g) (p_ind st)); lia. Qed.

Lemma inc_again : forall g st, p_ind (increase_indent g (decrease_indent (increase_indent g st))) = p_ind (increase_indent g st).
Proof.
  intros g st. pose proof (inc_max g st) as L. destruct (increase_indent g st) as [r cl q] eqn:E. cbn [p_ind] in L.
  assert (Q : q <> 0%N \/ max_indent g = 0%N).
  { unfold increase_indent in E. injection E as _ _ E. destruct (N.leb_spec (max_indent g) (p_ind st)); lia. }
  unfold increase_indent, decrease_indent. cbn [p_ind]. destruct (N.eqb_spec q 0) as [Z|Z].
  - destruct (N.leb_spec (max_indent g) q); lia.
  - destruct (N.leb_spec (max_indent g) (q - 1)); lia.
Qed.

Theorem function_doc : forall g c text n0 n b bs st o st', (0 < g_page g)%N -> vc_decl_form c = false ->
  with_doc_string "FunctionDef" text n0 n -> fld n "body" (JArr (b :: bs)) -> plain_doc text ->
  exec g (vy_emit c n) st = Ok (o, st') ->
  exists head k doc tail st0,
    exec g (vy_emit c n0) st = Ok (String.append head (String "010" (String.append (space_string k) tail)), st0) /\
    o = String.append head (String "010" (String.append (space_string k) (String.append doc
          (String "010" (String "010" (String.append (space_string k) tail)))))) /\
    doc_literal (space_string k) text doc /\ p_col st' = p_col st0 /\ p_ind st' = p_ind st0.
Proof.
  intros g c text n0 n b bs st o st' P C W B D H. destruct (with_doc_emit _ _ _ _ _ _ C W B) as (pre & post & E0 & E). rewrite E in H. rewrite E0. clear E E0 W B C.
  destruct (exec_app_ok _ _ _ _ _ _ H) as (head & s1 & x & H1 & H2 & ->). clear H. cbn [app exec exec1] in H2.
  apply and_print_ok in H2. destruct H2 as (a & s2 & y & H2 & H3 & ->). injection H2 as <- <-.
  rewrite <- and_print_assoc in H3. apply and_print_ok in H3. destruct H3 as (a & s3 & z & H3 & H4 & ->).
  rewrite newline_indent_ok in H3. injection H3 as <- <-.
  set (sd := increase_indent g s1) in *.
  destruct (exec_app_ok _ _ _ _ _ _ H4) as (doc & s4 & z2 & H5 & H6 & ->). clear H4.
  assert (G : doc_literal (indent_string g sd) text doc /\ p_ind s4 = p_ind sd).
  { apply (doc_string_text g text _ doc s4) in H5; [|exact P|exact (inc_max g s1)|reflexivity|exact D]. exact H5. }
  destruct G as (G & I4). cbn [exec exec1] in H6.
  apply and_print_ok in H6. destruct H6 as (a & s5 & z3 & H6 & H7 & ->). unfold write_newline in H6. injection H6 as <- <-.
  apply and_print_ok in H7. destruct H7 as (a & s6 & z4 & H7 & H8 & ->). injection H7 as <- <-.
  apply and_print_ok in H8. destruct H8 as (a & s7 & z5 & H8 & H9 & ->). unfold write_newline in H8. injection H8 as <- <-.
  apply and_print_ok in H9. destruct H9 as (a & s8 & z6 & H9 & H10 & ->). injection H9 as <- <-.
  apply and_print_ok in H10. destruct H10 as (a & s9 & tail & H10 & H11 & ->). rewrite write_indent_ok in H10. injection H10 as <- <-.
  match type of H11 with exec g post (PState _ (1 + indent_length g ?q) _) = _ => set (sq := q) in H11 |- * end.
  assert (IQ : p_ind sq = p_ind sd).
  { unfold sq, sd. etransitivity; [|exact (inc_again g s1)]. fold sd. unfold increase_indent, decrease_indent. cbn [p_ind p_col p_row]. rewrite I4. reflexivity. }
  assert (SI : indent_string g sq = indent_string g sd /\ indent_length g sq = indent_length g sd).
  { unfold indent_string, indent_length. now rewrite IQ. }
  destruct SI as (SI & SL).
  set (t := PState (p_row s1 + 1) (1 + indent_length g sd) (p_ind sd)).
  match type of H11 with exec g post ?a = _ => assert (SM : same a t) by (split; [exact (f_equal (N.add 1) SL)|exact IQ]) end.
  destruct (forget_ok _ _ _ _ (forget_exec g post _ t SM) H11) as (st0 & H12 & SA & SB).
  exists head, (N.to_nat (indent_length g sd)), doc, tail, st0. change (space_string (N.to_nat (indent_length g sd))) with (indent_string g sd).
  split; [|split; [|split; [exact G|split; [exact SA|exact SB]]]].
  - rewrite exec_app, H1. unfold and_print at 1. cbn [bind app exec exec1]. unfold write_newline, and_print at 1. cbn [bind].
    unfold and_print at 1. cbn [bind]. rewrite write_indent_ok. unfold and_print at 1. cbn [bind].
    change (exec g post _) with (exec g post t). rewrite H12. cbn [bind]. reflexivity.
  - rewrite SI. cbn [String.append nl]. rewrite ?app_assoc_s. reflexivity.
Qed.

Theorem module_doc : forall g c text n0 n st o st', (0 < g_page g)%N -> (p_ind st <= max_indent g)%N -> p_col st = (1 + indent_length g st)%N ->
  with_doc_string "Module" text n0 n -> plain_doc text ->
  exec g (vy_emit c n) st = Ok (o, st') ->
  exists doc s o0, exec g (vy_emit c n0) s = Ok (o0, st') /\ p_col s = 1%N /\ p_ind s = p_ind st /\
    o = String.append doc (String "010" (String "010" o0)) /\ doc_literal (indent_string g st) text doc.
Proof.
  intros g c text n0 n st o st' P I C (T & M & K & d & D & V) Q H.
  assert (T0 : is_a n0 "Module") by (unfold is_a, fld in *; rewrite <- K by discriminate; exact T).
  assert (E : vy_emit c n = v_doc_string text ++ [Newline; Newline] ++ vy_emit c n0).
  { rewrite (vy_at c n _ _ T eq_refl), (vy_at c n0 _ _ T0 eq_refl). unfold v_Module. unfold fld in D. rewrite D. cbn [opt].
    rewrite (get_str_plain d "value" _ eq_refl V). cbn [opt].
    assert (M0 : forall f, opt (oget n0 "doc_string") (fun v => opt (get_str v "value") f) = []) by (intros f; destruct M as [-> | ->]; reflexivity).
    rewrite M0. unfold arr_of. rewrite K by discriminate. rewrite <- app_assoc. reflexivity. }
  rewrite E in H. destruct (exec_app_ok _ _ _ _ _ _ H) as (doc & s1 & x & H1 & H2 & ->).
  destruct (doc_string_text _ _ _ _ _ P I C Q H1) as (L & J). cbn [app exec exec1] in H2.
  apply and_print_ok in H2. destruct H2 as (a & s2 & y & H2 & H3 & ->). unfold write_newline in H2. injection H2 as <- <-.
  apply and_print_ok in H3. destruct H3 as (a & s3 & o0 & H3 & H4 & ->). unfold write_newline in H3. injection H3 as <- <-.
  exists doc. eexists. exists o0. split; [exact H4|]. split; [reflexivity|]. split; [exact J|]. split; [reflexivity|exact L].
Qed.
