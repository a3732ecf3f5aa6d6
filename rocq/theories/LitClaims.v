(** The proofs behind PropLiteral.v. *)
From Coq Require Import String Ascii List NArith ZArith Bool Lia.
From Verif Require Import Base Json JsonFacts Printer VyPrinter SolPrinter SpecLiteral Samples
  TextFacts VyEmit SolEmit PrintFacts LitFacts.
Import ListNotations.
Open Scope string_scope.
Open Scope list_scope.

Lemma sol_literal_emit : forall c n v k,
  oget n "nodeType" = Some (JStr "Literal") -> oget n "kind" = Some (JStr k) -> oget n "value" = Some (JStr v) ->
  get_str n "subdenomination" = None ->
  sol_emit c n = if k =?s "string" then [Tok (quoted (unencode v))]
                 else if k =?s "unicodeString" then [Tok "unicode"; Tok (quoted v)] else [Tok v].
Proof.
  intros c n v k H1 H2 H3 H4. rewrite sol_emit_unfold. unfold sol_printer_for.
  rewrite (get_str_plain n "nodeType" _ eq_refl H1). cbn -[String.eqb sol_emit s_Literal assoc].
  change (s_Literal c sol_emit n = if k =?s "string" then [Tok (quoted (unencode v))]
                 else if k =?s "unicodeString" then [Tok "unicode"; Tok (quoted v)] else [Tok v]).
  unfold s_Literal. rewrite (get_str_plain n "value" _ eq_refl H3), (get_str_plain n "kind" _ eq_refl H2), H4.
  cbn [opt]. now rewrite app_nil_r.
Qed.

Lemma sol_string_claim : forall c n l,
  oget n "nodeType" = Some (JStr "Literal") -> oget n "kind" = Some (JStr "string") ->
  oget n "value" = Some (JStr (utf8 l)) -> get_str n "subdenomination" = None -> Forall sol_safe l ->
  exists lit, sol_emit c n = [Tok lit] /\ solidity_string lit = Some (utf8 l).
Proof.
  intros c n l H1 H2 H3 H4 F. eexists. split; [rewrite (sol_literal_emit c n _ _ H1 H2 H3 H4); reflexivity|].
  now apply sol_string_back.
Qed.

Lemma sol_char_claim : forall c n x,
  oget n "nodeType" = Some (JStr "Literal") -> oget n "kind" = Some (JStr "string") ->
  oget n "value" = Some (JStr (utf8 [x])) -> get_str n "subdenomination" = None -> scalar_value x ->
  exists lit, sol_emit c n = [Tok lit] /\ (solidity_string lit = Some (utf8 [x]) <-> sol_safe x).
Proof.
  intros c n l H1 H2 H3 H4 F. eexists. split; [rewrite (sol_literal_emit c n _ _ H1 H2 H3 H4); reflexivity|].
  now apply sol_char_iff.
Qed.

Lemma sol_unicode_claim : forall c n s,
  oget n "nodeType" = Some (JStr "Literal") -> oget n "kind" = Some (JStr "unicodeString") ->
  oget n "value" = Some (JStr s) -> get_str n "subdenomination" = None -> every_byte vy_safe s ->
  exists lit, sol_emit c n = [Tok "unicode"; Tok lit] /\ solidity_unicode lit = Some s.
Proof.
  intros c n l H1 H2 H3 H4 F. eexists. split; [rewrite (sol_literal_emit c n _ _ H1 H2 H3 H4); reflexivity|].
  now apply unicode_plain_back.
Qed.

Lemma vy_str_emit : forall c n s, oget n "ast_type" = Some (JStr "Str") -> oget n "value" = Some (JStr s) ->
  vy_emit c n = [Tok (quoted s)].
Proof.
  intros c n s H1 H2. rewrite vy_emit_unfold. unfold vy_printer_for.
  rewrite (get_str_plain n "ast_type" _ eq_refl H1).
  change (v_Str c vy_emit n = [Tok (quoted s)]). unfold v_Str.
  now rewrite (get_str_plain n "value" _ eq_refl H2).
Qed.

Lemma vy_string_claim : forall c n s,
  oget n "ast_type" = Some (JStr "Str") -> oget n "value" = Some (JStr s) -> every_byte vy_safe s ->
  exists lit, vy_emit c n = [Tok lit] /\ vyper_string lit = Some s.
Proof.
  intros c n s H1 H2 F. eexists. split; [exact (vy_str_emit c n s H1 H2)|]. now apply py_plain_back.
Qed.

Lemma vy_char_claim : forall c n a,
  oget n "ast_type" = Some (JStr "Str") -> oget n "value" = Some (JStr (String a "")) ->
  exists lit, vy_emit c n = [Tok lit] /\ (vyper_string lit = Some (String a "") <-> vy_safe a).
Proof.
  intros c n a H1 H2. eexists. split; [exact (vy_str_emit c n _ H1 H2)|]. apply vy_char_iff.
Qed.

Lemma vy_bytes_claim : forall c n bs,
  oget n "ast_type" = Some (JStr "Bytes") -> oget n "value" = Some (JStr (String.append "0x" (hex_encode bs))) ->
  exists lit, vy_emit c n = [Tok lit] /\ vyper_bytes lit = Some bs.
Proof.
  intros c n bs H1 H2. rewrite vy_emit_unfold. unfold vy_printer_for.
  rewrite (get_str_plain n "ast_type" _ eq_refl H1).
  assert (E : (match assoc "Bytes" vy_table with Some p => p | None => v_dummy end) = v_Bytes) by reflexivity.
  rewrite E. unfold v_Bytes. rewrite (get_str_plain n "value" _ eq_refl H2). cbn [opt].
  change (str_drop 2 (String.append "0x" (hex_encode bs))) with (str_drop 0 (hex_encode bs)).
  replace (str_drop 0 (hex_encode bs)) with (hex_encode bs) by (destruct (hex_encode bs); reflexivity).
  destruct (bytes_back bs) as (x & E1 & E2). rewrite E1. eexists. split; [reflexivity|].
  exact E2.
Qed.

Lemma vy_int_emit : forall c n, oget n "ast_type" = Some (JStr "Int") -> vy_emit c n = v_Int c vy_emit n.
Proof.
  intros c n H1. rewrite vy_emit_unfold. unfold vy_printer_for.
  rewrite (get_str_plain n "ast_type" _ eq_refl H1). reflexivity.
Qed.

Lemma vy_int_claim : forall c n z, (-9223372036854775808 <= z < 9223372036854775808)%Z ->
  oget n "ast_type" = Some (JStr "Int") -> oget n "value" = Some (jint z) ->
  exists lit, vy_emit c n = [Tok lit] /\ read_decimal lit = Some z.
Proof.
  intros c n z B H1 H2. exists (show_Z z). split; [|apply decimal_back].
  rewrite (vy_int_emit _ _ H1). unfold v_Int, get_int. rewrite (kget_plain n "value" eq_refl), H2.
  assert (E : as_i64 (jint z) = Some z).
  { unfold jint, as_i64. destruct (z <? 0)%Z eqn:E; [reflexivity|].
    apply Z.ltb_ge in E. cbn. rewrite Z2N.id by lia.
    replace (Z.to_N z <? 9223372036854775808)%N with true by (symmetry; apply N.ltb_lt; lia). reflexivity. }
  now rewrite E.
Qed.

(** Two integers printed alike. *)
Definition int_a : json := v_node "Int" 1 [("value", juint 9223372036854775808)].
Definition int_b : json := v_node "Int" 1 [("value", juint 9223372036854775809)].

Lemma vy_int_refuted : exists n m x y,
  oget n "ast_type" = Some (JStr "Int") /\ oget n "value" = Some (JNum (NumU x)) /\ (x < two64)%N /\
  oget m "ast_type" = Some (JStr "Int") /\ oget m "value" = Some (JNum (NumU y)) /\ (y < two64)%N /\ x <> y /\
  forall c, exists lit, vy_emit c n = [Tok lit] /\ vy_emit c m = [Tok lit].
Proof.
  exists int_b, int_a, 9223372036854775809%N, 9223372036854775808%N.
  do 6 (split; [reflexivity|]). split; [discriminate|]. intros c. eexists. split; vm_compute; reflexivity.
Qed.

Lemma sol_string_refuted : exists n s lit,
  oget n "nodeType" = Some (JStr "Literal") /\ oget n "kind" = Some (JStr "string") /\
  oget n "value" = Some (JStr s) /\ (forall c, sol_emit c n = [Tok lit]) /\ solidity_string lit <> Some s.
Proof.
  exists (s_node "Literal" 1 [("kind", JStr "string"); ("value", JStr """")]), """", """""""".
  do 3 (split; [reflexivity|]). split; [reflexivity|]. vm_compute. discriminate.
Qed.

Lemma vy_string_refuted : exists n s lit,
  oget n "ast_type" = Some (JStr "Str") /\ oget n "value" = Some (JStr s) /\
  (forall c, vy_emit c n = [Tok lit]) /\ vyper_string lit <> Some s.
Proof.
  exists (v_node "Str" 1 [("value", JStr """")]), """", """""""".
  do 2 (split; [reflexivity|]). split; [reflexivity|]. vm_compute. discriminate.
Qed.
