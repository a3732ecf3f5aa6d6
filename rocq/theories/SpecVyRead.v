(** Reading Vyper: the tokens and the grammar of Python, as far as Vyper uses
    them.  Independent of the printer and of the text of SpecVyText.v.  Fuel
    bounds the recursion only. *)
From Coq Require Import String Ascii List NArith ZArith Bool.
From Verif Require Import Base Json SpecLiteral SpecVyText.
Import ListNotations.
Open Scope string_scope.
Open Scope list_scope.

(** ** Tokens *)

(** [TLine k] begins a logical line that is indented by [k] blanks. *)
Inductive tok : Type :=
| TWord (s : string)
| TNum (s : string)
| TText (s : string)
| TData (s : string)
| TSym (s : string)
| TLine (k : nat).

Definition code (c : ascii) : N := N_of_ascii c.
Definition between (a : ascii) (lo hi : ascii) : bool := (code lo <=? code a)%N && (code a <=? code hi)%N.
Definition digit (c : ascii) : bool := between c "0" "9".
Definition letter (c : ascii) : bool := between c "a" "z" || between c "A" "Z" || Ascii.eqb c "_".
Definition hexdigit (c : ascii) : bool := digit c || between c "a" "f" || between c "A" "F".
Definition wordchar (c : ascii) : bool := letter c || digit c.

Fixpoint span (p : ascii -> bool) (s : string) : string * string :=
  match s with
  | EmptyString => ("", "")
  | String c r => if p c then let (a, b) := span p r in (String c a, b) else ("", s)
  end.

(** Up to and including the closing quote, on the same line. *)
Fixpoint upto_quote (q : ascii) (s : string) : option (string * string) :=
  match s with
  | EmptyString => None
  | String c r =>
      if Ascii.eqb c q then Some (String c "", r)
      else if Ascii.eqb c "\" then
        match r with
        | EmptyString => None
        | String d r =>
            if Ascii.eqb d "010" then None else option_map (fun x => (String c (String d (fst x)), snd x)) (upto_quote q r)
        end
      else if Ascii.eqb c "010" then None
      else option_map (fun x => (String c (fst x), snd x)) (upto_quote q r)
  end.

Fixpoint take (n : nat) (s : string) : string :=
  match n, s with S n, String c r => String c (take n r) | _, _ => "" end.
Fixpoint drop (n : nat) (s : string) : string :=
  match n, s with S n, String _ r => drop n r | _, _ => s end.

Definition number (s : string) : string * string :=
  if String.prefix "0x" s then let (a, b) := span hexdigit (drop 2 s) in (String.append "0x" a, b)
  else
    let (a, b) := span digit s in
    match b with
    | String p (String c r) =>
        if Ascii.eqb p "." && digit c then let (d, r) := span digit (String c r) in (String.append a (String p d), r) else (a, b)
    | _ => (a, b)
    end.

(** The longest symbol is taken. *)
Definition symbols3 : list string := ["**="; "//="; "<<="; ">>="].
Definition symbols2 : list string :=
  ["**"; "//"; "<<"; ">>"; "<="; ">="; "=="; "!="; "->"; "+="; "-="; "*="; "/="; "%="; "&="; "|="; "^="].
Definition symbols1 : list string :=
  ["+"; "-"; "*"; "/"; "%"; "&"; "|"; "^"; "~"; "<"; ">"; "="; "."; ","; ":"; "@"; "("; ")"; "["; "]"; "{"; "}"].

Definition symbol (s : string) : option (string * string) :=
  if smem (take 3 s) symbols3 then Some (take 3 s, drop 3 s)
  else if smem (take 2 s) symbols2 then Some (take 2 s, drop 2 s)
  else if smem (take 1 s) symbols1 then Some (take 1 s, drop 1 s)
  else None.

Definition opens (s : string) : bool := smem s ["("; "["; "{"].
Definition closes (s : string) : bool := smem s [")"; "]"; "}"].

(** One step at the bracket depth [d]: a token or nothing, the depth, the rest. *)
Definition next (d : nat) (s : string) : option (option tok * nat * string) :=
  match s with
  | EmptyString => None
  | String c r =>
      if Ascii.eqb c " " then Some (None, d, r)
      else if Ascii.eqb c "#" then Some (None, d, snd (span (fun a => negb (Ascii.eqb a "010")) s))
      else if Ascii.eqb c "010" then
        match d with
        | S _ => Some (None, d, r)
        | O =>
            let (m, r') := span (Ascii.eqb " ") r in
            match r' with
            | EmptyString => Some (None, d, r')
            | String a _ =>
                if Ascii.eqb a "010" || Ascii.eqb a "#" then Some (None, d, r') else Some (Some (TLine (String.length m)), d, r')
            end
        end
      else if Ascii.eqb c """" then
        match upto_quote """" r with
        | Some (a, b) => match py_body """" a with Some v => Some (Some (TText v), d, b) | None => None end
        | None => None
        end
      else if String.prefix "b'" s then
        match upto_quote "'" (drop 2 s) with
        | Some (a, b) => match py_body "'" a with Some v => Some (Some (TData v), d, b) | None => None end
        | None => None
        end
      else if letter c then let (a, b) := span wordchar s in Some (Some (TWord a), d, b)
      else if digit c then let (a, b) := number s in Some (Some (TNum a), d, b)
      else
        match symbol s with
        | Some (a, b) => Some (Some (TSym a), if opens a then S d else if closes a then pred d else d, b)
        | None => None
        end
  end.

Definition given {A} (o : option A) (l : list A) : list A := match o with Some a => a :: l | None => l end.

Fixpoint lex (fuel : nat) (d : nat) (s : string) : option (list tok) :=
  match fuel with
  | O => None
  | S fuel =>
      match s with
      | EmptyString => Some []
      | _ => match next d s with
             | Some (t, d, r) => option_map (given t) (lex fuel d r)
             | None => None
             end
      end
  end.

(** ** Expressions *)

Definition keywords : list string :=
  ["and"; "or"; "not"; "in"; "if"; "else"; "for"; "return"; "assert"; "raise"; "log"; "pass"; "break"; "continue";
   "def"; "struct"; "event"; "enum"; "interface"; "import"; "from"; "as"; "public"; "constant"; "immutable"].
Definition constants : list (string * option bool) := [("True", Some true); ("False", Some false); ("None", None)].

Definition parser (A : Type) : Type := list tok -> option (A * list tok).

Definition sym (s : string) (ts : list tok) : option (list tok) :=
  match ts with TSym x :: r => if x =?s s then Some r else None | _ => None end.
Definition word (s : string) (ts : list tok) : option (list tok) :=
  match ts with TWord x :: r => if x =?s s then Some r else None | _ => None end.

(** Items with commas between them, up to a closing symbol (a comma may come
    before it). *)
Fixpoint items {A} (fuel : nat) (item : parser A) (close : string) (ts : list tok) : option (list A * list tok) :=
  match fuel with
  | O => None
  | S fuel =>
      match sym close ts with
      | Some r => Some ([], r)
      | None =>
          match item ts with
          | Some (a, r) =>
              match sym close r with
              | Some r => Some ([a], r)
              | None =>
                  match sym "," r with
                  | Some r => match items fuel item close r with Some (l, r) => Some (a :: l, r) | None => None end
                  | None => None
                  end
              end
          | None => None
          end
      end
  end.

(** One argument of a call. *)
Definition call_arg (expr : parser vexp) : parser (option string * vexp) := fun ts =>
  match expr ts with
  | Some (a, r) =>
      match a, sym "=" r with
      | VName x, Some r => match expr r with Some (e, r) => Some ((Some x, e), r) | None => None end
      | _, _ => Some ((None, a), r)
      end
  | None => None
  end.
(** Positional arguments come first. *)
Fixpoint split_args (l : list (option string * vexp)) : option (list vexp * list (string * vexp)) :=
  match l with
  | [] => Some ([], [])
  | (None, e) :: l => match split_args l with Some (a, k) => Some (e :: a, k) | None => None end
  | (Some x, e) :: l => match split_args l with Some ([], k) => Some ([], (x, e) :: k) | _ => None end
  end.

Definition dict_item (expr : parser vexp) : parser (vexp * vexp) := fun ts =>
  match expr ts with
  | Some (k, r) =>
      match sym ":" r with
      | Some r => match expr r with Some (v, r) => Some ((k, v), r) | None => None end
      | None => None
      end
  | None => None
  end.

(** What may follow an atom: [.x], [\[i\]], [(args)]. *)
Fixpoint trailers (fuel : nat) (expr : parser vexp) (a : vexp) (ts : list tok) : option (vexp * list tok) :=
  match fuel with
  | O => None
  | S fuel =>
      match ts with
      | TSym s :: r =>
          if s =?s "." then match r with TWord x :: r => trailers fuel expr (VAttr a x) r | _ => None end
          else if s =?s "[" then
            match items fuel expr "]" r with
            | Some (i :: more, r) => trailers fuel expr (VSub a i more) r
            | _ => None
            end
          else if s =?s "(" then
            match items fuel (call_arg expr) ")" r with
            | Some (l, r) => match split_args l with Some (args, kws) => trailers fuel expr (VCall a args kws) r | None => None end
            | None => None
            end
          else Some (a, ts)
      | _ => Some (a, ts)
      end
  end.

Definition literal (s : string) : option vexp :=
  if String.prefix "0x" s then Some (VVerbatim true s)
  else if str_contains "." s then Some (VVerbatim false s)
  else option_map (fun n => VInt (Z.of_N n)) (parse_digits s).

Definition atom (fuel : nat) (expr : parser vexp) : parser vexp := fun ts =>
  match ts with
  | TWord x :: r =>
      match assoc x constants with
      | Some c => Some (VConst c, r)
      | None => if smem x keywords then None else Some (VName x, r)
      end
  | TNum s :: r => match literal s with Some e => Some (e, r) | None => None end
  | TText s :: r => Some (VStr s, r)
  | TData s :: r => Some (VBytes s, r)
  | TSym s :: r =>
      if s =?s "(" then
        match sym ")" r with
        | Some r => Some (VTuple [], r)
        | None =>
            match expr r with
            | Some (e, r) =>
                match sym ")" r with
                | Some r => Some (e, r)
                | None =>
                    match sym "," r with
                    | Some r => match items fuel expr ")" r with Some (l, r) => Some (VTuple (e :: l), r) | None => None end
                    | None => None
                    end
                end
            | None => None
            end
        end
      else if s =?s "[" then match items fuel expr "]" r with Some (l, r) => Some (VList l, r) | None => None end
      else if s =?s "{" then match items fuel (dict_item expr) "}" r with Some (l, r) => Some (VDict l, r) | None => None end
      else None
  | _ => None
  end.

(** The binary operators of the levels 4 to 9, which associate to the left. *)
Definition operators (level : nat) : list string :=
  match level with
  | 4 => ["|"] | 5 => ["^"] | 6 => ["&"] | 7 => ["<<"; ">>"] | 8 => ["+"; "-"] | 9 => ["*"; "/"; "//"; "%"]
  | _ => []
  end.
Fixpoint chain (fuel : nat) (ops : list string) (operand : parser vexp) (a : vexp) (ts : list tok) : option (vexp * list tok) :=
  match fuel with
  | O => None
  | S fuel =>
      match ts with
      | TSym op :: r =>
          if smem op ops then
            match operand r with Some (b, r) => chain fuel ops operand (VBin op a b) r | None => None end
          else Some (a, ts)
      | _ => Some (a, ts)
      end
  end.

(** Operands with the word [w] between them. *)
Fixpoint joined (fuel : nat) (w : string) (operand : parser vexp) (ts : list tok) : option (list vexp * list tok) :=
  match fuel with
  | O => None
  | S fuel =>
      match word w ts with
      | Some r =>
          match operand r with
          | Some (a, r) => match joined fuel w operand r with Some (l, r) => Some (a :: l, r) | None => None end
          | None => None
          end
      | None => Some ([], ts)
      end
  end.
Definition logic (both : bool) (a : vexp) (l : list vexp) : vexp :=
  match l with [] => a | b :: more => VLogic both a b more end.

Definition comparison (ts : list tok) : option (string * list tok) :=
  match ts with
  | TSym op :: r => if smem op ["=="; "!="; "<"; ">"; "<="; ">="] then Some (op, r) else None
  | TWord w :: r =>
      if w =?s "in" then Some ("in", r)
      else if w =?s "not" then match word "in" r with Some r => Some ("not in", r) | None => None end
      else None
  | _ => None
  end.

(** The sign of a literal belongs to it. *)
Definition negated (e : vexp) : vexp :=
  match e with VInt z => if (z <? 0)%Z then VNeg e else VInt (- z) | _ => VNeg e end.

(** Python's levels, from the loosest: 0 [or], 1 [and], 2 [not], 3 comparisons
    (Vyper has no chains of them), 4 to 9 the binary operators, 10 signs and
    [~], 11 [**], which is tighter than a sign on its left and looser than one
    on its right, 12 atoms with what follows them. *)
Fixpoint expr (fuel : nat) (level : nat) (ts : list tok) {struct fuel} : option (vexp * list tok) :=
  match fuel with
  | O => None
  | S fuel =>
      match level with
      | 0 | 1 =>
          match expr fuel (S level) ts with
          | Some (a, r) =>
              match joined fuel (match level with 0 => "or" | _ => "and" end) (expr fuel (S level)) r with
              | Some (l, r) => Some (logic (match level with 0 => false | _ => true end) a l, r)
              | None => None
              end
          | None => None
          end
      | 2 =>
          match word "not" ts with
          | Some r => match expr fuel 2 r with Some (a, r) => Some (VNot a, r) | None => None end
          | None => expr fuel 3 ts
          end
      | 3 =>
          match expr fuel 4 ts with
          | Some (a, r) =>
              match comparison r with
              | Some (op, r) =>
                  match expr fuel 4 r with
                  | Some (b, r) => match comparison r with None => Some (VCmp op a b, r) | Some _ => None end
                  | None => None
                  end
              | None => Some (a, r)
              end
          | None => None
          end
      | 10 =>
          match sym "-" ts, sym "~" ts with
          | Some r, _ => match expr fuel 10 r with Some (a, r) => Some (negated a, r) | None => None end
          | _, Some r => match expr fuel 10 r with Some (a, r) => Some (VInvert a, r) | None => None end
          | None, None => expr fuel 11 ts
          end
      | 11 =>
          match expr fuel 12 ts with
          | Some (a, r) =>
              match sym "**" r with
              | Some r => match expr fuel 10 r with Some (b, r) => Some (VBin "**" a b, r) | None => None end
              | None => Some (a, r)
              end
          | None => None
          end
      | 12 =>
          match atom fuel (expr fuel 0) ts with
          | Some (a, r) => trailers fuel (expr fuel 0) a r
          | None => None
          end
      | _ =>
          match expr fuel (S level) ts with
          | Some (a, r) => chain fuel (operators level) (expr fuel (S level)) a r
          | None => None
          end
      end
  end.

(** ** Statements *)

(** The end of a line. *)
Definition at_end (ts : list tok) : bool := match ts with [] => true | TLine _ :: _ => true | _ => false end.

(** Expressions with commas between them. *)
Fixpoint commas (fuel : nat) (item : parser vexp) (ts : list tok) : option (list vexp * list tok) :=
  match fuel with
  | O => None
  | S fuel =>
      match sym "," ts with
      | Some r =>
          match item r with
          | Some (a, r) => match commas fuel item r with Some (l, r) => Some (a :: l, r) | None => None end
          | None => None
          end
      | None => Some ([], ts)
      end
  end.
Definition top (fuel : nat) : parser vtop := fun ts =>
  match expr fuel 0 ts with
  | Some (a, r) =>
      match commas fuel (expr fuel 0) r with
      | Some ([], r) => Some (One a, r)
      | Some (l, r) => Some (Many (a :: l), r)
      | None => None
      end
  | None => None
  end.

(** Something after a symbol, or nothing. *)
Definition optional {A} (s : string) (p : parser A) : parser (option A) := fun ts =>
  match sym s ts with
  | Some r => match p r with Some (a, r) => Some (Some a, r) | None => None end
  | None => Some (None, ts)
  end.

Definition augmented : list (string * string) :=
  [("+=", "+"); ("-=", "-"); ("*=", "*"); ("/=", "/"); ("%=", "%"); ("**=", "**"); ("&=", "&"); ("|=", "|"); ("^=", "^");
   ("//=", "//"); ("<<=", "<<"); (">>=", ">>")].

(** Statements that begin with an expression. *)
Definition plain_stmt (fuel : nat) : parser vstmt := fun ts =>
  match top fuel ts with
  | Some (t, r) =>
      match r with
      | TSym s :: r =>
          if s =?s "=" then match top fuel r with Some (e, r) => Some (VsAssign t e, r) | None => None end
          else if s =?s ":" then
            match t, expr fuel 0 r with
            | One t, Some (ty, r) => match optional "=" (expr fuel 0) r with Some (e, r) => Some (VsAnn t ty e, r) | None => None end
            | _, _ => None
            end
          else
            match t, assoc s augmented, expr fuel 0 r with
            | One t, Some op, Some (e, r) => Some (VsAug t op e, r)
            | _, _, _ => None
            end
      | _ => match t with One e => Some (VsExpr e, r) | Many _ => None end
      end
  | None => None
  end.

Definition simple_words : list string := ["pass"; "break"; "continue"].

Definition simple_stmt (fuel : nat) : parser vstmt := fun ts =>
  match ts with
  | TWord w :: r =>
      if smem w simple_words then Some (VsWord w, r)
      else if w =?s "return" then
        if at_end r then Some (VsReturn None, r)
        else match top fuel r with Some (e, r) => Some (VsReturn (Some e), r) | None => None end
      else if w =?s "assert" then
        match expr fuel 0 r with
        | Some (e, r) => match optional "," (expr fuel 0) r with Some (m, r) => Some (VsAssert e m, r) | None => None end
        | None => None
        end
      else if w =?s "raise" then match expr fuel 0 r with Some (e, r) => Some (VsRaise e, r) | None => None end
      else if w =?s "log" then match expr fuel 0 r with Some (e, r) => Some (VsLog e, r) | None => None end
      else plain_stmt fuel ts
  | _ => plain_stmt fuel ts
  end.

(** The lines of a block: those indented like its first one, by more than [k]. *)
Fixpoint more_lines {A} (fuel : nat) (k : nat) (line : parser A) (ts : list tok) : option (list A * list tok) :=
  match fuel with
  | O => None
  | S fuel =>
      match ts with
      | TLine j :: r =>
          if Nat.eqb j k then
            match line r with
            | Some (a, r) =>
                if at_end r then match more_lines fuel k line r with Some (l, r) => Some (a :: l, r) | None => None end else None
            | None => None
            end
          else Some ([], ts)
      | _ => Some ([], ts)
      end
  end.
Definition block {A} (fuel : nat) (k : nat) (line : nat -> parser A) : parser (list A) := fun ts =>
  match ts with
  | TLine j :: _ => if Nat.ltb k j then more_lines fuel j (line j) ts else None
  | _ => None
  end.

(** [else:] on a line indented by [k]. *)
Definition else_of (k : nat) (ts : list tok) : option (list tok) :=
  match ts with
  | TLine j :: r =>
      if Nat.eqb j k then match word "else" r with Some r => sym ":" r | None => None end else None
  | _ => None
  end.

(** A statement on a line indented by [k]. *)
Fixpoint stmt (fuel : nat) (k : nat) (ts : list tok) {struct fuel} : option (vstmt * list tok) :=
  match fuel with
  | O => None
  | S fuel =>
      match word "if" ts with
      | Some r =>
          match expr fuel 0 r with
          | Some (e, r) =>
              match sym ":" r with
              | Some r =>
                  match block fuel k (stmt fuel) r with
                  | Some (body, r) =>
                      match else_of k r with
                      | Some r =>
                          match block fuel k (stmt fuel) r with Some (orelse, r) => Some (VsIf e body orelse, r) | None => None end
                      | None => Some (VsIf e body [], r)
                      end
                  | None => None
                  end
              | None => None
              end
          | None => None
          end
      | None =>
          match word "for" ts with
          | Some r =>
              match expr fuel 12 r with
              | Some (t, r) =>
                  match word "in" r with
                  | Some r =>
                      match expr fuel 0 r with
                      | Some (it, r) =>
                          match sym ":" r with
                          | Some r => match block fuel k (stmt fuel) r with Some (body, r) => Some (VsFor t it body, r) | None => None end
                          | None => None
                          end
                      | None => None
                      end
                  | None => None
                  end
              | None => None
              end
          | None => simple_stmt fuel ts
          end
      end
  end.

(** ** Definitions *)

Definition argument (fuel : nat) : parser varg := fun ts =>
  match ts with
  | TWord x :: r =>
      match optional ":" (expr fuel 0) r with
      | Some (ty, r) => match optional "=" (expr fuel 0) r with Some (d, r) => Some (VArg x ty d, r) | None => None end
      | None => None
      end
  | _ => None
  end.

Definition a_type (fuel : nat) : parser vtop := fun ts =>
  match expr fuel 0 ts with
  | Some (VTuple l, r) => Some (Many l, r)
  | Some (e, r) => Some (One e, r)
  | None => None
  end.

(** [def f(args) -> ret:] *)
Definition header (fuel : nat) : parser (string * list varg * option vtop) := fun ts =>
  match word "def" ts with
  | Some (TWord f :: r) =>
      match sym "(" r with
      | Some r =>
          match items fuel (argument fuel) ")" r with
          | Some (args, r) =>
              match optional "->" (a_type fuel) r with
              | Some (ret, r) => match sym ":" r with Some r => Some ((f, args, ret), r) | None => None end
              | None => None
              end
          | None => None
          end
      | None => None
      end
  | _ => None
  end.

Definition signature (fuel : nat) : parser vsig := fun ts =>
  match header fuel ts with
  | Some ((f, args, ret), r) => match expr fuel 0 r with Some (e, r) => Some (VSig f args ret e, r) | None => None end
  | None => None
  end.

(** Decorators, each on a line of its own. *)
Fixpoint decorators (fuel : nat) (ts : list tok) : option (list vexp * list tok) :=
  match fuel with
  | O => None
  | S fuel =>
      match sym "@" ts with
      | Some r =>
          match expr fuel 0 r with
          | Some (d, TLine 0 :: r) => match decorators fuel r with Some (l, r) => Some (d :: l, r) | None => None end
          | _ => None
          end
      | None => Some ([], ts)
      end
  end.

(** [w(p)] or [p]. *)
Definition wrapped {A} (w : string) (p : parser A) : parser (bool * A) := fun ts =>
  match word w ts with
  | Some r =>
      match sym "(" r with
      | Some r =>
          match p r with
          | Some (a, r) => match sym ")" r with Some r => Some ((true, a), r) | None => None end
          | None => None
          end
      | None => None
      end
  | None => match p ts with Some (a, r) => Some ((false, a), r) | None => None end
  end.

Fixpoint dotted (fuel : nat) (ts : list tok) : option (string * list tok) :=
  match fuel with
  | O => None
  | S fuel =>
      match ts with
      | TWord x :: r =>
          match sym "." r with
          | Some r => match dotted fuel r with Some (m, r) => Some (cat [x; "."; m], r) | None => None end
          | None => Some (x, r)
          end
      | _ => None
      end
  end.
Definition renamed : parser (option string) := fun ts =>
  match word "as" ts with
  | Some (TWord x :: r) => Some (Some x, r)
  | Some _ => None
  | None => Some (None, ts)
  end.

Definition variable (fuel : nat) : parser vdef := fun ts =>
  match expr fuel 12 ts with
  | Some (x, r) =>
      match sym ":" r with
      | Some r =>
          match wrapped "public" (wrapped "constant" (wrapped "immutable" (a_type fuel))) r with
          | Some ((p, (c, (i, ty))), r) =>
              match optional "=" (expr fuel 0) r with Some (e, r) => Some (VdVar x p c i ty e, r) | None => None end
          | None => None
          end
      | None => None
      end
  | None => None
  end.

Definition function (fuel : nat) : parser vdef := fun ts =>
  match decorators fuel ts with
  | Some (decs, r) =>
      match header fuel r with
      | Some ((f, args, ret), r) =>
          match block fuel 0 (stmt fuel) r with Some (body, r) => Some (VdFun decs f args ret body, r) | None => None end
      | None => None
      end
  | None => None
  end.

Definition import_from (fuel : nat) : parser vdef := fun ts =>
  match (match sym "." ts with
         | Some r => Some (None, r)
         | None => match dotted fuel ts with Some (m, r) => Some (Some m, r) | None => None end
         end) with
  | Some (m, r) =>
      match word "import" r with
      | Some (TWord x :: r) => match renamed r with Some (a, r) => Some (VdFrom m x a, r) | None => None end
      | _ => None
      end
  | None => None
  end.

(** [f:] and a block. *)
Definition named_block {A} (fuel : nat) (line : nat -> parser A) : parser (string * list A) := fun ts =>
  match ts with
  | TWord f :: r =>
      match sym ":" r with
      | Some r => match block fuel 0 line r with Some (b, r) => Some ((f, b), r) | None => None end
      | None => None
      end
  | _ => None
  end.

Definition def (fuel : nat) : parser vdef := fun ts =>
  match ts with
  | TWord kw :: r =>
      if kw =?s "struct" then
        match named_block fuel (stmt fuel) r with Some ((f, b), r) => Some (VdFields kw f b, r) | None => None end
      else if smem kw ["event"; "enum"] then
        match named_block fuel (stmt fuel) r with Some ((f, b), r) => Some (VdBlock kw f b, r) | None => None end
      else if kw =?s "interface" then
        match named_block fuel (fun _ => signature fuel) r with Some ((f, g), r) => Some (VdInterface f g, r) | None => None end
      else if kw =?s "import" then
        match dotted fuel r with
        | Some (m, r) => match renamed r with Some (a, r) => Some (VdImport m a, r) | None => None end
        | None => None
        end
      else if kw =?s "from" then import_from fuel r
      else if kw =?s "def" then function fuel ts
      else variable fuel ts
  | _ => match sym "@" ts with Some _ => function fuel ts | None => variable fuel ts end
  end.

(** A program: definitions on lines that are not indented. *)
Definition read_program (fuel : nat) (s : string) : option (list vdef) :=
  match lex fuel 0 (String "010" s) with
  | Some ts => match more_lines fuel 0 (def fuel) ts with Some (l, []) => Some l | _ => None end
  | None => None
  end.

(** The text [s] is read as the program [l]. *)
Definition reads (s : string) (l : list vdef) : Prop :=
  exists enough, forall fuel, enough <= fuel -> read_program fuel s = Some l.

(** ** Programs that are written with Vyper's words

    Names are names and not keywords, literals are literals, operators are
    Vyper's, blocks are not empty; the sign of an integer literal is part of it,
    and a tuple type has two components. *)

Fixpoint every (p : ascii -> bool) (s : string) : bool :=
  match s with EmptyString => true | String c r => p c && every p r end.

Definition ident (s : string) : bool :=
  match s with EmptyString => false | String c r => letter c && every wordchar r end.
Definition name (s : string) : bool := ident s && negb (smem s keywords) && negb (smem s (map fst constants)).

(** Names with dots between them. *)
Fixpoint dots (start : bool) (s : string) : bool :=
  match s with
  | EmptyString => negb start
  | String c r => if start then letter c && dots false r else if Ascii.eqb c "." then dots true r else wordchar c && dots false r
  end.

Definition digits (s : string) : bool := negb (s =?s "") && every digit s.
Definition decimal (s : string) : bool :=
  let (a, b) := span digit s in
  match b with String p r => digits a && Ascii.eqb p "." && digits r | EmptyString => false end.
Definition hexadecimal (s : string) : bool := String.prefix "0x" s && every hexdigit (drop 2 s).
Definition unescaped (c : ascii) : bool :=
  negb (Ascii.eqb c """" || Ascii.eqb c "\" || Ascii.eqb c "010" || Ascii.eqb c "013").

Fixpoint spelled (e : vexp) : bool :=
  match e with
  | VName x => name x
  | VInt _ | VBytes _ | VConst _ => true
  | VVerbatim hex s => if hex then hexadecimal s else decimal s
  | VStr s => every unescaped s
  | VBin op a b => smem op (map snd binary_symbols) && spelled a && spelled b
  | VCmp op a b => smem op (map snd compare_symbols) && spelled a && spelled b
  | VLogic _ a b more => spelled a && spelled b && forallb spelled more
  | VNot a | VInvert a => spelled a
  | VNeg a => match a with VInt z => (z <? 0)%Z | _ => true end && spelled a
  | VAttr a x => spelled a && ident x
  | VSub a i more => spelled a && spelled i && forallb spelled more
  | VCall f args kws => spelled f && forallb spelled args && forallb (fun kv => name (fst kv) && spelled (snd kv)) kws
  | VList l | VTuple l => forallb spelled l
  | VDict l => forallb (fun kv => spelled (fst kv) && spelled (snd kv)) l
  end.

Definition several {A} (l : list A) : bool := Nat.leb 2 (List.length l).
Definition some {A} (l : list A) : bool := Nat.leb 1 (List.length l).
Definition o_all {A} (p : A -> bool) (o : option A) : bool := match o with Some a => p a | None => true end.

Definition spelled_top (t : vtop) : bool :=
  match t with One e => spelled e | Many l => several l && forallb spelled l end.
Definition spelled_type (t : vtop) : bool :=
  match t with One (VTuple _) => false | _ => spelled_top t end.

Fixpoint spelled_stmt (s : vstmt) : bool :=
  match s with
  | VsExpr e | VsRaise e | VsLog e => spelled e
  | VsAssign t e => spelled_top t && spelled_top e
  | VsAug t op e => smem op (map snd binary_symbols) && spelled t && spelled e
  | VsAnn t ty e => spelled t && spelled ty && o_all spelled e
  | VsReturn e => o_all spelled_top e
  | VsAssert e msg => spelled e && o_all spelled msg
  | VsWord w => smem w simple_words
  | VsIf e body orelse => spelled e && some body && forallb spelled_stmt body && forallb spelled_stmt orelse
  | VsFor t it body => Nat.leb 4 (binding t) && spelled t && spelled it && some body && forallb spelled_stmt body
  end.

Definition spelled_arg (a : varg) : bool :=
  ident (va_name a) && o_all spelled (va_type a) && o_all spelled (va_default a).
Definition spelled_head (f : string) (args : list varg) (ret : option vtop) : bool :=
  ident f && forallb spelled_arg args && o_all spelled_type ret.
Definition spelled_block (l : list vstmt) : bool := some l && forallb spelled_stmt l.

Definition spelled_def (d : vdef) : bool :=
  match d with
  | VdFun decs f args ret body => forallb spelled decs && spelled_head f args ret && spelled_block body
  | VdVar x _ _ _ ty e => Nat.leb 4 (binding x) && spelled x && spelled_type ty && o_all spelled e
  | VdFields kw f body => (kw =?s "struct") && ident f && spelled_block body
  | VdInterface f sigs =>
      ident f && some sigs &&
      forallb (fun g => spelled_head (vg_name g) (vg_args g) (vg_ret g) && spelled (vg_body g)) sigs
  | VdBlock kw f body => smem kw ["event"; "enum"] && ident f && spelled_block body
  | VdImport m alias => dots true m && o_all ident alias
  | VdFrom m x alias => o_all (dots true) m && ident x && o_all ident alias
  end.
