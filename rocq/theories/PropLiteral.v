(** C50, C63, C64: literals.  [solidity_string], [solidity_unicode],
    [vyper_string], [vyper_bytes] and [read_decimal] (SpecLiteral.v) read a
    literal the way the languages do; [utf8 l] is the text with code points [l]. *)
From Coq Require Import String Ascii List NArith ZArith Bool.
From Verif Require Import Base Json Printer VyPrinter SolPrinter SpecLiteral Samples LitClaims.
Import ListNotations.
Open Scope string_scope.
Open Scope list_scope.

(** C50, Solidity.  Exactly the characters of [sol_safe] survive on their own
    (so the quote, the backslash, 0-8, 11, 12, 14, 15, 127-4095 and everything
    from 65536 do not), ... *)
Theorem C50_solidity_characters_exactly :
  forall c n x,
  oget n "nodeType" = Some (JStr "Literal") -> oget n "kind" = Some (JStr "string") ->
  oget n "value" = Some (JStr (utf8 [x])) -> get_str n "subdenomination" = None -> scalar_value x ->
  exists lit, sol_emit c n = [Tok lit] /\ (solidity_string lit = Some (utf8 [x]) <-> sol_safe x).
Proof. exact sol_char_claim. Qed.
Print Assumptions C50_solidity_characters_exactly.

Theorem C50_solidity_strings_survive_refuted :
  exists n s lit,
  oget n "nodeType" = Some (JStr "Literal") /\ oget n "kind" = Some (JStr "string") /\
  oget n "value" = Some (JStr s) /\ (forall c, sol_emit c n = [Tok lit]) /\ solidity_string lit <> Some s.
Proof. exact sol_string_refuted. Qed.
Print Assumptions C50_solidity_strings_survive_refuted.

(** ... and all strings made of those characters survive. *)
Theorem C50_solidity_strings_survive_partial :
  forall c n l,
  oget n "nodeType" = Some (JStr "Literal") -> oget n "kind" = Some (JStr "string") ->
  oget n "value" = Some (JStr (utf8 l)) -> get_str n "subdenomination" = None -> Forall sol_safe l ->
  exists lit, sol_emit c n = [Tok lit] /\ solidity_string lit = Some (utf8 l).
Proof. exact sol_string_claim. Qed.
Print Assumptions C50_solidity_strings_survive_partial.

Definition literal (k v : string) : json :=
  s_node "Literal" 1 [("kind", JStr k); ("value", JStr v); ("subdenomination", JNull)].

Example C50_solidity_example :
  sol_emit sol_default (literal "string" (utf8 [65; 10; 20; 8364]%N)) = [Tok (quoted "A\n\x14\u20ac")] /\
  solidity_string (quoted "A\n\x14\u20ac") = Some (utf8 [65; 10; 20; 8364]%N).
Proof. split; vm_compute; reflexivity. Qed.

Example C50_solidity_broken :
  sol_emit sol_default (literal "string" "say ""hi""") = [Tok """say ""hi"""""] /\
  solidity_string """say ""hi""""" = None /\
  sol_emit sol_default (literal "string" "\n") = [Tok """\n"""] /\
  solidity_string """\n""" = Some (utf8 [10%N]) /\
  sol_emit sol_default (literal "string" (utf8 [233%N])) = [Tok """\ue9"""] /\
  solidity_string """\ue9""" = None.
Proof. repeat split; vm_compute; reflexivity. Qed.

(** Literals written [unicode"..."]. *)
Theorem C50_solidity_unicode_strings_survive_partial :
  forall c n s,
  oget n "nodeType" = Some (JStr "Literal") -> oget n "kind" = Some (JStr "unicodeString") ->
  oget n "value" = Some (JStr s) -> get_str n "subdenomination" = None -> every_byte vy_safe s ->
  exists lit, sol_emit c n = [Tok "unicode"; Tok lit] /\ solidity_unicode lit = Some s.
Proof. exact sol_unicode_claim. Qed.
Print Assumptions C50_solidity_unicode_strings_survive_partial.

Example C50_unicode_example :
  sol_emit sol_default (literal "unicodeString" (utf8 [233%N])) = [Tok "unicode"; Tok (quoted (utf8 [233%N]))].
Proof. vm_compute. reflexivity. Qed.

(** C50, Vyper. *)
Theorem C50_vyper_characters_exactly :
  forall c n a,
  oget n "ast_type" = Some (JStr "Str") -> oget n "value" = Some (JStr (String a "")) ->
  exists lit, vy_emit c n = [Tok lit] /\ (vyper_string lit = Some (String a "") <-> vy_safe a).
Proof. exact vy_char_claim. Qed.
Print Assumptions C50_vyper_characters_exactly.

Theorem C50_vyper_strings_survive_refuted :
  exists n s lit,
  oget n "ast_type" = Some (JStr "Str") /\ oget n "value" = Some (JStr s) /\
  (forall c, vy_emit c n = [Tok lit]) /\ vyper_string lit <> Some s.
Proof. exact vy_string_refuted. Qed.
Print Assumptions C50_vyper_strings_survive_refuted.

Theorem C50_vyper_strings_survive_partial :
  forall c n s,
  oget n "ast_type" = Some (JStr "Str") -> oget n "value" = Some (JStr s) -> every_byte vy_safe s ->
  exists lit, vy_emit c n = [Tok lit] /\ vyper_string lit = Some s.
Proof. exact vy_string_claim. Qed.
Print Assumptions C50_vyper_strings_survive_partial.

Example C50_vyper_example : forall c,
  vy_emit c (v_node "Str" 1 [("value", JStr "it's ok")]) = [Tok """it's ok"""] /\
  every_byte vy_safe "it's ok" /\
  vy_emit c (v_node "Str" 1 [("value", JStr "a""b")]) = [Tok """a""b"""] /\ vyper_string """a""b""" = None.
Proof. intros c. vm_compute. repeat split; discriminate. Qed.

(** C63. *)
Theorem C63_vyper_byte_literals_survive :
  forall c n bs,
  oget n "ast_type" = Some (JStr "Bytes") -> oget n "value" = Some (JStr (String.append "0x" (hex_encode bs))) ->
  exists lit, vy_emit c n = [Tok lit] /\ vyper_bytes lit = Some bs.
Proof. exact vy_bytes_claim. Qed.
Print Assumptions C63_vyper_byte_literals_survive.

Example C63_example : forall c,
  vy_emit c (v_node "Bytes" 1 [("value", JStr "0x276109")]) = [Tok "b'\x27\x61\x09'"] /\
  vyper_bytes "b'\x27\x61\x09'" = Some (fold_right String.append "" [byte 39; byte 97; byte 9]).
Proof. intros c. split; vm_compute; reflexivity. Qed.

(** C64.  Different integers from 2^63 on are printed alike. *)
Theorem C64_vyper_integers_survive_refuted :
  exists n m x y,
  oget n "ast_type" = Some (JStr "Int") /\ oget n "value" = Some (JNum (NumU x)) /\ (x < two64)%N /\
  oget m "ast_type" = Some (JStr "Int") /\ oget m "value" = Some (JNum (NumU y)) /\ (y < two64)%N /\ x <> y /\
  forall c, exists lit, vy_emit c n = [Tok lit] /\ vy_emit c m = [Tok lit].
Proof. exact vy_int_refuted. Qed.
Print Assumptions C64_vyper_integers_survive_refuted.

Theorem C64_vyper_integers_survive_partial :
  forall c n z, (-9223372036854775808 <= z < 9223372036854775808)%Z ->
  oget n "ast_type" = Some (JStr "Int") -> oget n "value" = Some (jint z) ->
  exists lit, vy_emit c n = [Tok lit] /\ read_decimal lit = Some z.
Proof. exact vy_int_claim. Qed.
Print Assumptions C64_vyper_integers_survive_partial.

Example C64_example : forall c, vy_emit c (v_int 1 (-120)) = [Tok "-120"] /\ read_decimal "-120" = Some (-120)%Z.
Proof. intros c. split; vm_compute; reflexivity. Qed.
