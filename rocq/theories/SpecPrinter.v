(** Vocabulary for the properties of the pretty-printer: lines, words, blanks,
    indentation.  Nothing here mentions how the printer works. *)
From Coq Require Import String Ascii List NArith Bool.
From Verif Require Import Base Json Printer.
Import ListNotations.
Open Scope string_scope.
Open Scope list_scope.

(** ** Text *)

(** White space, as far as the printer is concerned. *)
Definition blank_char (c : ascii) : Prop := c = " "%char \/ c = "010"%char.

Fixpoint blank (s : string) : Prop :=
  match s with
  | EmptyString => True
  | String c s => blank_char c /\ blank s
  end.

(** The text without its blanks. *)
Fixpoint strip (s : string) : string :=
  match s with
  | EmptyString => EmptyString
  | String c s =>
      if (Ascii.eqb c " " || Ascii.eqb c "010")%bool then strip s else String c (strip s)
  end.

(** The lines of a text. *)
Definition lines (s : string) : list string := split_on "010" s.

Definition one_line (s : string) : Prop := str_contains "010" s = false.

(** The words of a text: the maximal pieces without blanks. *)
Definition words (s : string) : list string :=
  filter (fun w => negb (is_empty_str w)) (flat_map (split_on " ") (lines s)).

(** [s] is the given tokens, in order, each of them whole, with nothing but
    blanks before, between and after them. *)
Inductive interleaved : list string -> string -> Prop :=
| Inter_nil w : blank w -> interleaved [] w
| Inter_cons w t ts s :
    blank w -> interleaved ts s -> interleaved (t :: ts) (String.append w (String.append t s)).

(** [s] is a text cut into pieces: the first piece, then for every other piece
    a line break (with blanks around it), the prefix, and the piece. *)
Inductive pieces (prefix : string) : list string -> string -> Prop :=
| Pieces_one p : pieces prefix [p] p
| Pieces_more p w ps s :
    blank w -> str_contains "010" w = true -> pieces prefix ps s ->
    pieces prefix (p :: ps)
           (String.append p (String.append w (String.append prefix s))).

(** A line that is empty or begins, after blanks, with a marker. *)
Definition marked (marker line : string) : Prop :=
  blank line \/ exists w r, blank w /\ line = String.append w (String.append marker r).

(** ** Print requests *)

(** The tokens among the requests. *)
Definition tokens (l : list cmd) : list string :=
  flat_map (fun c => match c with Tok s => [s] | _ => [] end) l.

(** Requests without re-flowed text (and without a crash). *)
Definition plain1 (c : cmd) : Prop :=
  match c with Flow _ _ => False | FlowOf _ _ => False | Abort _ => False | _ => True end.
Definition plain (l : list cmd) : Prop := Forall plain1 l.

(** Requests in which every token and every blank fits on an empty line at its
    indentation level.  [ind] is the level, [bol] says that nothing has been
    written on the line yet. *)
Fixpoint fits (g : geo) (bol : bool) (ind : N) (l : list cmd) : Prop :=
  match l with
  | [] => True
  | Tok s :: l => (ind * g_tab g + slen s < g_page g)%N /\ fits g false ind l
  | Space :: l => (ind * g_tab g + 1 < g_page g)%N /\ fits g false ind l
  | Newline :: l => fits g true ind l
  | Indent :: l => bol = true /\ (ind * g_tab g < g_page g)%N /\ fits g false ind l
  | Inc :: l => fits g bol (if (max_indent g <=? ind)%N then max_indent g else (ind + 1)%N) l
  | Dec :: l => fits g bol (if (ind =? 0)%N then ind else (ind - 1)%N) l
  | _ :: _ => False
  end.

(** Requests that ask for a single line. *)
Definition flat1 (c : cmd) : Prop :=
  match c with Tok s => one_line s | Space => True | Inc => True | Dec => True | _ => False end.

(** The number of columns they take. *)
Definition width (l : list cmd) : N :=
  fold_right (fun c w => match c with Tok s => slen s + w | Space => 1 + w | _ => w end)%N 0%N l.

(** How far above the starting level the requests climb. *)
Fixpoint climb (h : N) (l : list cmd) : N :=
  match l with
  | [] => h
  | Inc :: l => N.max h (climb (h + 1) l)
  | Dec :: l => N.max h (climb (h - 1) l)
  | _ :: l => N.max h (climb h l)
  end.

(** ** ASTs that differ in bookkeeping only *)

Definition scalar (j : json) : Prop :=
  match j with JArr _ => False | JObj _ => False | _ => True end.

(** The same AST, except that the values under the given keys may be other
    scalars. *)
Inductive same_but (keys : list string) : json -> json -> Prop :=
| Same_refl j : same_but keys j j
| Same_arr l l' : Forall2 (same_but keys) l l' -> same_but keys (JArr l) (JArr l')
| Same_obj l l' :
    Forall2 (fun p q => fst p = fst q /\
                        ((In (fst p) keys /\ scalar (snd p) /\ scalar (snd q)) \/
                         same_but keys (snd p) (snd q))) l l' ->
    same_but keys (JObj l) (JObj l').

(** What the compilers write into a node about the node itself. *)
Definition solidity_bookkeeping : list string :=
  ["id"; "src"; "scope"; "referencedDeclaration"; "nameLocation"; "memberLocation";
   "functionReturnParameters"; "functionSelector"; "canonicalName"; "absolutePath"].
Definition vyper_bookkeeping : list string :=
  ["node_id"; "src"; "lineno"; "col_offset"; "end_lineno"; "end_col_offset"].
