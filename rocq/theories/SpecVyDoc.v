(** Doc strings of Vyper functions and modules.  Independent of the printer. *)
From Coq Require Import String Ascii List NArith Bool.
From Verif Require Import Base Json SpecPrinter SpecVyText.
Import ListNotations.
Open Scope string_scope.
Open Scope list_scope.

Definition quotes3 : string := """""""".

(** A string in three quotes, after the opening ones: up to the first three
    quotes in a row; a backslash and the character after it belong together.
    The part before the closing quotes, and what follows them. *)
Fixpoint upto_quotes (s : string) : option (string * string) :=
  match s with
  | EmptyString => None
  | String a r =>
      if Ascii.eqb a "\" then
        match r with
        | EmptyString => None
        | String b r => option_map (fun x => (String a (String b (fst x)), snd x)) (upto_quotes r)
        end
      else
        match r with
        | String b (String c rest) =>
            if Ascii.eqb a """" && Ascii.eqb b """" && Ascii.eqb c """" then Some ("", rest)
            else option_map (fun x => (String a (fst x), snd x)) (upto_quotes r)
        | _ => option_map (fun x => (String a (fst x), snd x)) (upto_quotes r)
        end
  end.

(** For a reader of Python or Vyper, [s] is one string in three quotes, and
    what is written in it is [body] (no escapes): whatever follows [s], the
    reader goes on there. *)
Definition triple_string (body s : string) : Prop :=
  exists t, s = String.append quotes3 t /\ str_contains "\" body = false /\
    forall rest, upto_quotes (String.append t rest) = Some (body, rest).

(** A text that can stand between three quotes: without a backslash, without
    three quotes in a row, and its last visible character is not a quote. *)
Definition plain_doc (text : string) : Prop :=
  str_contains "\" text = false /\
  (forall a b, text <> String.append a (String.append quotes3 b)) /\
  (forall a b, blank b -> text <> String.append a (String """" b)).

(** [doc] is a doc string for [text] on the margin [w]: a string in three
    quotes, there or at the margin of a later line.  Its words are those of the
    text; a text of several lines is there unchanged. *)
Definition doc_literal (w text doc : string) : Prop :=
  exists u body s, doc = String.append u s /\ triple_string body s /\
    (u = "" \/ exists v, blank v /\ u = String.append v (String "010" w)) /\
    words body = words text /\ (str_contains "010" text = true -> body = text).

(** [n] is the definition [n0] with the doc string [text]. *)
Definition with_doc_string (ty text : string) (n0 n : json) : Prop :=
  is_a n ty /\ missing n0 "doc_string" /\ (forall k, k <> "doc_string" -> oget n k = oget n0 k) /\
  exists d, fld n "doc_string" d /\ fld d "value" (JStr text).

(** ** Whole modules *)

(** A definition of a module that may have got a doc string: the doc strings
    given (none or one). *)
Inductive may_document : list string -> json -> json -> Prop :=
| Undocumented n : may_document [] n n
| Documented text n0 n b bs :
    with_doc_string "FunctionDef" text n0 n -> fld n "body" (JArr (b :: bs)) -> plain_doc text -> may_document [text] n0 n.

Inductive all_document : list string -> list json -> list json -> Prop :=
| All_none : all_document [] [] []
| All_one ts us n n' l l' : may_document ts n n' -> all_document us l l' -> all_document (ts ++ us) (n :: l) (n' :: l').

(** The same module, with the doc strings [texts] in its functions, in order. *)
Definition documented_module (texts : list string) (n0 n : json) : Prop :=
  is_a n0 "Module" /\ (forall k, k <> "body" -> oget n k = oget n0 k) /\
  exists l0 l, fld n0 "body" (JArr l0) /\ fld n "body" (JArr l) /\ all_document texts l0 l.

(** The text [s'] is the text [s] with doc strings for [texts] in it, in order:
    each stands on a line of its own (and an empty line follows), at the margin
    of the line before which it is put. *)
Inductive documents : list string -> string -> string -> Prop :=
| Docs_end : documents [] "" ""
| Docs_text ts a s s' : documents ts s s' -> documents ts (String.append a s) (String.append a s')
| Docs_doc text ts w doc s s' : blank w -> one_line w -> doc_literal w text doc -> documents ts s s' ->
    documents (text :: ts) (String "010" (String.append w s))
      (String "010" (String.append w (String.append doc (String "010" (String "010" (String.append w s')))))).
