(** Reading Solidity: the tokens and the grammar of the compiler's scanner and
    parser, for everything SpecSolText.v has a syntax for.  Independent of the
    printer and of the texts of SpecSolText.v.  Fuel bounds the recursion only. *)
From Coq Require Import String Ascii List NArith ZArith Bool.
From Verif Require Import Base Json SpecLiteral SpecVyText SpecSolText.
From Verif Require SpecVyRead.
Import ListNotations.
Open Scope string_scope.
Open Scope list_scope.

(** ** Tokens *)

Inductive token : Type :=
| KWord (s : string)
| KNum (s : string)
| KText (s : string)                                (* "..." *)
| KUnicode (s : string)                             (* unicode"..." *)
| KHex (s : string)                                 (* hex"..." *)
| KSym (s : string).

Definition digit : ascii -> bool := SpecVyRead.digit.
Definition hexdigit : ascii -> bool := SpecVyRead.hexdigit.
Definition letter (c : ascii) : bool := SpecVyRead.letter c || Ascii.eqb c "$".
Definition wordchar (c : ascii) : bool := letter c || digit c.
Definition span : (ascii -> bool) -> string -> string * string := SpecVyRead.span.
Definition take : nat -> string -> string := SpecVyRead.take.
Definition drop : nat -> string -> string := SpecVyRead.drop.
Definition upto_quote : ascii -> string -> option (string * string) := SpecVyRead.upto_quote.

(** Numbers: 0x1f, 12, 1_000, 1.5, .5, 1e18, 2.5e-3. *)
Definition numchar (c : ascii) : bool := digit c || Ascii.eqb c "_".
Definition fraction (s : string) : string * string :=
  match s with
  | String p (String c r) =>
      if Ascii.eqb p "." && digit c then let (d, r) := span numchar (String c r) in (String p d, r) else ("", s)
  | _ => ("", s)
  end.
Definition exponent (s : string) : string * string :=
  match s with
  | String e (String c r) =>
      if Ascii.eqb e "e" || Ascii.eqb e "E" then
        if digit c then let (d, r) := span numchar (String c r) in (String e d, r)
        else match r with
             | String c2 _ => if Ascii.eqb c "-" && digit c2 then let (d, r) := span numchar r in (String e (String c d), r) else ("", s)
             | EmptyString => ("", s)
             end
      else ("", s)
  | _ => ("", s)
  end.
Definition number (s : string) : string * string :=
  if String.prefix "0x" s then let (a, b) := span (fun c => hexdigit c || Ascii.eqb c "_") (drop 2 s) in (String.append "0x" a, b)
  else
    let (a, b) := span numchar s in
    let (c, d) := fraction b in
    let (e, f) := exponent d in
    (String.append a (String.append c e), f).

(** The longest symbol is taken. *)
Definition symbols4 : list string := [">>>="].
Definition symbols3 : list string := ["<<="; ">>="; ">>>"].
Definition symbols2 : list string :=
  ["**"; "<<"; ">>"; "<="; ">="; "=="; "!="; "&&"; "||"; "->"; "=>"; "++"; "--"; "+="; "-="; "*="; "/="; "%="; "&="; "|="; "^="].
Definition symbols1 : list string :=
  ["+"; "-"; "*"; "/"; "%"; "&"; "|"; "^"; "~"; "!"; "<"; ">"; "="; "?"; "."; ","; ":"; ";"; "("; ")"; "["; "]"; "{"; "}"].

Definition symbol (s : string) : option (string * string) :=
  if smem (take 4 s) symbols4 then Some (take 4 s, drop 4 s)
  else if smem (take 3 s) symbols3 then Some (take 3 s, drop 3 s)
  else if smem (take 2 s) symbols2 then Some (take 2 s, drop 2 s)
  else if smem (take 1 s) symbols1 then Some (take 1 s, drop 1 s)
  else None.

(** Up to the end of a comment in asterisks. *)
Fixpoint after_comment (s : string) : option string :=
  match s with
  | EmptyString => None
  | String c r =>
      match r with
      | String d r' => if Ascii.eqb c "*" && Ascii.eqb d "/" then Some r' else after_comment r
      | EmptyString => None
      end
  end.

Fixpoint hex_pairs (s : string) : option string :=
  match s with
  | EmptyString => Some ""
  | String a (String b r) =>
      match hex2 a b, hex_pairs r with Some v, Some s => Some (String (ascii_of_N v) s) | _, _ => None end
  | String _ EmptyString => None
  end.

Definition starts_with (c : ascii) (s : string) : bool := match s with String d _ => Ascii.eqb d c | EmptyString => false end.

(** The token of a text after its opening quote. *)
Definition quoted (decode : string -> option token) (s : string) : option (option token * string) :=
  match upto_quote """" s with
  | Some (a, b) => match decode a with Some t => Some (Some t, b) | None => None end
  | None => None
  end.
(** Without the closing quote. *)
Fixpoint unquote (s : string) : string :=
  match s with String c (String _ _ as r) => String c (unquote r) | _ => "" end.

(** One step: a token or nothing, the rest. *)
Definition next (s : string) : option (option token * string) :=
  match s with
  | EmptyString => None
  | String c r =>
      if Ascii.eqb c " " || Ascii.eqb c "010" || Ascii.eqb c "013" || Ascii.eqb c "009" then Some (None, r)
      else if Ascii.eqb c "/" && starts_with "/" r then Some (None, snd (span (fun a => negb (Ascii.eqb a "010")) s))
      else if Ascii.eqb c "/" && starts_with "*" r then option_map (fun r => (None, r)) (after_comment (drop 1 r))
      else if Ascii.eqb c """" then quoted (fun a => option_map KText (sol_body a)) r
      else if letter c then
        let (a, b) := span wordchar s in
        if (a =?s "hex") && starts_with """" b then quoted (fun a => option_map KHex (hex_pairs (unquote a))) (drop 1 b)
        else if (a =?s "unicode") && starts_with """" b then quoted (fun a => option_map KUnicode (unicode_body a)) (drop 1 b)
        else Some (Some (KWord a), b)
      else if digit c || Ascii.eqb c "." && match r with String d _ => digit d | EmptyString => false end then
        let (a, b) := number s in Some (Some (KNum a), b)
      else match symbol s with Some (a, b) => Some (Some (KSym a), b) | None => None end
  end.

Definition given {A} (o : option A) (l : list A) : list A := match o with Some a => a :: l | None => l end.

Fixpoint lex (fuel : nat) (s : string) : option (list token) :=
  match fuel with
  | O => None
  | S fuel =>
      match s with
      | EmptyString => Some []
      | _ => match next s with
             | Some (t, r) => option_map (given t) (lex fuel r)
             | None => None
             end
      end
  end.

(** ** Names *)

Definition units : list string := ["wei"; "gwei"; "szabo"; "finney"; "ether"; "seconds"; "minutes"; "hours"; "days"; "weeks"; "years"].

Definition keywords : list string :=
  ["abstract"; "anonymous"; "as"; "assembly"; "break"; "calldata"; "catch"; "constant"; "constructor"; "continue"; "contract";
   "delete"; "do"; "else"; "emit"; "enum"; "event"; "external"; "fallback"; "false"; "for"; "function"; "hex"; "if"; "immutable";
   "import"; "indexed"; "interface"; "internal"; "is"; "library"; "mapping"; "memory"; "modifier"; "new"; "override"; "payable";
   "pragma"; "private"; "public"; "pure"; "receive"; "return"; "returns"; "storage"; "struct"; "true"; "try"; "type"; "unchecked";
   "unicode"; "using"; "view"; "virtual"; "while"; "_"].

Definition sized (s : string) (step count : N) : list string :=
  map (fun k => String.append s (show_N (step * (N.of_nat k + 1))%N)) (seq 0 (N.to_nat count)).
Definition elementary_names : list string :=
  ["address"; "bool"; "string"; "bytes"; "byte"; "uint"; "int"] ++ sized "uint" 8 32 ++ sized "int" 8 32 ++ sized "bytes" 1 32.
Definition elementary (w : string) : bool := smem w elementary_names.

(** Not the name of anything. *)
Definition reserved (w : string) : bool := smem w keywords || smem w units || elementary w.

(** ** Helpers *)

Definition parser (A : Type) : Type := list token -> option (A * list token).

Definition sym (s : string) (ts : list token) : option (list token) :=
  match ts with KSym x :: r => if x =?s s then Some r else None | _ => None end.
Definition word (s : string) (ts : list token) : option (list token) :=
  match ts with KWord x :: r => if x =?s s then Some r else None | _ => None end.

Definition ident : parser string := fun ts =>
  match ts with KWord x :: r => if reserved x then None else Some (x, r) | _ => None end.
(** A name, or nothing. *)
Definition maybe_ident (ts : list token) : string * list token :=
  match ident ts with Some (x, r) => (x, r) | None => ("", ts) end.
(** One of the words, or nothing. *)
Definition maybe_word (l : list string) (ts : list token) : string * list token :=
  match ts with KWord x :: r => if smem x l then (x, r) else ("", ts) | _ => ("", ts) end.

Definition then_ {A B} (p : option (A * list token)) (f : A -> list token -> option B) : option B :=
  match p with Some (a, r) => f a r | None => None end.
Definition after {B} (p : option (list token)) (f : list token -> option B) : option B :=
  match p with Some r => f r | None => None end.

(** Items with commas between them and a closing symbol at the end. *)
Fixpoint items1 {A} (fuel : nat) (item : parser A) (close : string) (ts : list token) : option (list A * list token) :=
  match fuel with
  | O => None
  | S fuel =>
      then_ (item ts) (fun a r =>
        match sym close r with
        | Some r => Some ([a], r)
        | None => after (sym "," r) (fun r => then_ (items1 fuel item close r) (fun l r => Some (a :: l, r)))
        end)
  end.
Definition items {A} (fuel : nat) (item : parser A) (close : string) : parser (list A) := fun ts =>
  match sym close ts with Some r => Some ([], r) | None => items1 fuel item close ts end.

(** An item may be left out. *)
Definition hole {A} (item : parser A) (close : string) : parser (option A) := fun ts =>
  match sym "," ts, sym close ts with
  | None, None => then_ (item ts) (fun a r => Some (Some a, r))
  | _, _ => Some (None, ts)
  end.

(** Things one after the other up to a closing symbol. *)
Fixpoint until {A} (fuel : nat) (item : parser A) (close : string) (ts : list token) : option (list A * list token) :=
  match fuel with
  | O => None
  | S fuel =>
      match sym close ts with
      | Some r => Some ([], r)
      | None => then_ (item ts) (fun a r => then_ (until fuel item close r) (fun l r => Some (a :: l, r)))
      end
  end.

(** a.b.c *)
Fixpoint dotted (ts : list token) : string * list token :=
  match ts with
  | KSym s :: (KWord x :: r) =>
      if (s =?s ".") && negb (reserved x) then let (p, r) := dotted r in (String "." (String.append x p), r) else ("", ts)
  | _ => ("", ts)
  end.
Definition path : parser string := fun ts =>
  then_ (ident ts) (fun x r => let (p, r) := dotted r in Some (String.append x p, r)).

(** ** Types *)

Definition location_words : list string := ["memory"; "storage"; "calldata"].
Definition mutability_words : list string := ["pure"; "view"; "payable"].

(** A parameter of a type of functions. *)
Definition plain_param (type : parser sexp) : parser (sexp * string * string) := fun ts =>
  then_ (type ts) (fun t r => let (l, r) := maybe_word location_words r in let (x, r) := maybe_ident r in Some ((t, l, x), r)).

(** The brackets of arrays. *)
Fixpoint brackets (fuel : nat) (expr : parser sexp) (t : sexp) (ts : list token) : option (sexp * list token) :=
  match fuel with
  | O => None
  | S fuel =>
      match sym "[" ts with
      | Some r =>
          match sym "]" r with
          | Some r => brackets fuel expr (TArr t None) r
          | None => then_ (expr r) (fun e r => after (sym "]" r) (fun r => brackets fuel expr (TArr t (Some e)) r))
          end
      | None => Some (t, ts)
      end
  end.

Fixpoint typ (fuel : nat) (expr : parser sexp) (ts : list token) {struct fuel} : option (sexp * list token) :=
  match fuel with
  | O => None
  | S fuel =>
      then_ match ts with
            | KWord w :: r =>
                if w =?s "mapping" then
                  after (sym "(" r) (fun r => then_ (typ fuel expr r) (fun k r =>
                    let (kn, r) := maybe_ident r in
                    after (sym "=>" r) (fun r => then_ (typ fuel expr r) (fun v r =>
                      let (vn, r) := maybe_ident r in
                      after (sym ")" r) (fun r => Some (TMap k kn v vn, r))))))
                else if w =?s "function" then
                  after (sym "(" r) (fun r => then_ (items fuel (plain_param (typ fuel expr)) ")" r) (fun ps r =>
                    let (v, r) := maybe_word ["external"; "internal"] r in
                    let (m, r) := maybe_word mutability_words r in
                    match word "returns" r with
                    | Some r =>
                        after (sym "(" r) (fun r => then_ (items1 fuel (plain_param (typ fuel expr)) ")" r) (fun rs r =>
                          Some (TFun ps (v =?s "external") m rs, r)))
                    | None => Some (TFun ps (v =?s "external") m [], r)
                    end))
                else if elementary w then
                  match word "payable" r with
                  | Some r' => if w =?s "address" then Some (TName w true, r') else Some (TName w false, r)
                  | None => Some (TName w false, r)
                  end
                else then_ (path ts) (fun x r => Some (TUser x, r))
            | _ => None
            end (brackets fuel expr)
  end.

(** ** Expressions *)

(** x: e *)
Definition named_item (expr : parser sexp) : parser (string * sexp) := fun ts =>
  then_ (ident ts) (fun x r => after (sym ":" r) (fun r => then_ (expr r) (fun e r => Some ((x, e), r)))).

(** The end of a slice. *)
Definition slice_end (expr : parser sexp) (a : sexp) (i : option sexp) : parser sexp := fun ts =>
  match sym "]" ts with
  | Some r => Some (XSlice a i None, r)
  | None => then_ (expr ts) (fun j r => after (sym "]" r) (fun r => Some (XSlice a i (Some j), r)))
  end.
(** After the opening bracket. *)
Definition index (expr : parser sexp) (a : sexp) : parser sexp := fun ts =>
  match sym "]" ts with
  | Some r => Some (XIndex a None, r)
  | None =>
      match sym ":" ts with
      | Some r => slice_end expr a None r
      | None =>
          then_ (expr ts) (fun i r =>
            match sym "]" r with
            | Some r => Some (XIndex a (Some i), r)
            | None => after (sym ":" r) (fun r => slice_end expr a (Some i) r)
            end)
      end
  end.
(** After the opening parenthesis of a call. *)
Definition call (fuel : nat) (expr : parser sexp) (f : sexp) : parser sexp := fun ts =>
  match sym "{" ts with
  | Some r => then_ (items fuel (named_item expr) "}" r) (fun l r => after (sym ")" r) (fun r => Some (XNamed f l, r)))
  | None => then_ (items fuel expr ")" ts) (fun l r => Some (XCall f l, r))
  end.

(** What may follow: [.x], [\[i\]], [(args)], [{x: e}]. *)
Fixpoint trailers (fuel : nat) (expr : parser sexp) (a : sexp) (ts : list token) : option (sexp * list token) :=
  match fuel with
  | O => None
  | S fuel =>
      match ts with
      | KSym s :: r =>
          if s =?s "." then
            match r with
            | KWord x :: r => if reserved x && negb (x =?s "address") then None else trailers fuel expr (XMember a x) r
            | _ => None
            end
          else if s =?s "[" then then_ (index expr a r) (trailers fuel expr)
          else if s =?s "(" then then_ (call fuel expr a r) (trailers fuel expr)
          else if s =?s "{" then
            match r with
            | KWord _ :: KSym c :: _ =>
                if c =?s ":" then then_ (items1 fuel (named_item expr) "}" r) (fun l r => trailers fuel expr (XOpts a l) r)
                else Some (a, ts)
            | _ => Some (a, ts)
            end
          else Some (a, ts)
      | _ => Some (a, ts)
      end
  end.

Definition atom (fuel : nat) (expr : parser sexp) : parser sexp := fun ts =>
  match ts with
  | KWord x :: r =>
      if x =?s "new" then then_ (typ fuel expr r) (fun t r => Some (XNew t, r))
      else if smem x ["true"; "false"] then Some (XLit x None, r)
      else if elementary x || (x =?s "payable") then Some (XType x, r)
      else if x =?s "type" then Some (XId x, r)
      else if reserved x then None
      else Some (XId x, r)
  | KNum s :: r =>
      match r with
      | KWord u :: r' => if smem u units then Some (XLit s (Some u), r') else Some (XLit s None, r)
      | _ => Some (XLit s None, r)
      end
  | KText s :: r => Some (XStr s, r)
  | KUnicode s :: r => Some (XUnicode s, r)
  | KHex s :: r => Some (XHex s, r)
  | KSym s :: r =>
      if s =?s "(" then
        match sym ")" r with
        | Some r => Some (XTuple [], r)
        | None => then_ (items1 fuel (hole expr ")") ")" r) (fun l r => Some (XTuple l, r))
        end
      else if s =?s "[" then then_ (items1 fuel expr "]" r) (fun l r => Some (XArray l, r))
      else None
  | [] => None
  end.

(** The binary operators by level; they associate to the left. *)
Definition operators (level : nat) : list string :=
  match level with
  | 4 => ["||"] | 5 => ["&&"] | 6 => ["=="; "!="] | 7 => ["<"; ">"; "<="; ">="] | 8 => ["|"] | 9 => ["^"] | 10 => ["&"]
  | 11 => ["<<"; ">>"; ">>>"] | 12 => ["+"; "-"] | 13 => ["*"; "/"; "%"]
  | _ => []
  end.
Definition assignments : list string := ["="; "+="; "-="; "*="; "/="; "%="; "&="; "|="; "^="; "<<="; ">>="; ">>>="].
Definition prefixes : list string := ["!"; "~"; "-"; "++"; "--"].

Fixpoint chain (fuel : nat) (ops : list string) (operand : parser sexp) (a : sexp) (ts : list token) : option (sexp * list token) :=
  match fuel with
  | O => None
  | S fuel =>
      match ts with
      | KSym op :: r =>
          if smem op ops then then_ (operand r) (fun b r => chain fuel ops operand (XBin op a b) r) else Some (a, ts)
      | _ => Some (a, ts)
      end
  end.

(** Levels, from the loosest: 3 assignments and conditionals, which associate to
    the right, 4 to 13 binary operators, 14 [**], to the right, 15 signs and
    steps, 16 atoms with what follows them. *)
Fixpoint expr (fuel : nat) (level : nat) (ts : list token) {struct fuel} : option (sexp * list token) :=
  match fuel with
  | O => None
  | S fuel =>
      match level with
      | 3 =>
          then_ (expr fuel 4 ts) (fun a r =>
            match r with
            | KSym s :: r' =>
                if s =?s "?" then
                  then_ (expr fuel 3 r') (fun b r => after (sym ":" r) (fun r => then_ (expr fuel 3 r) (fun c r => Some (XCond a b c, r))))
                else if smem s assignments then then_ (expr fuel 3 r') (fun b r => Some (XAssign s a b, r))
                else Some (a, r)
            | _ => Some (a, r)
            end)
      | 14 =>
          then_ (expr fuel 15 ts) (fun a r =>
            match sym "**" r with
            | Some r => then_ (expr fuel 14 r) (fun b r => Some (XBin "**" a b, r))
            | None => Some (a, r)
            end)
      | 15 =>
          let postfix := then_ (expr fuel 16 ts) (fun a r =>
            match r with
            | KSym s :: r' => if smem s ["++"; "--"] then Some (XPost s a, r') else Some (a, r)
            | _ => Some (a, r)
            end) in
          match ts with
          | KSym s :: r => if smem s prefixes then then_ (expr fuel 15 r) (fun a r => Some (XPre s a, r)) else postfix
          | KWord w :: r => if w =?s "delete" then then_ (expr fuel 15 r) (fun a r => Some (XPre w a, r)) else postfix
          | _ => postfix
          end
      | 16 => then_ (atom fuel (expr fuel 3) ts) (trailers fuel (expr fuel 3))
      | _ => then_ (expr fuel (S level) ts) (chain fuel (operators level) (expr fuel (S level)))
      end
  end.

(** ** Variables *)

Definition bare (t : sexp) : svar := SVar t "" false false None false "" "" None.

Definition override_list (fuel : nat) : parser (list sexp) := fun ts =>
  match sym "(" ts with
  | Some r => items1 fuel (fun ts => then_ (path ts) (fun x r => Some (XId x, r))) ")" r
  | None => Some ([], ts)
  end.

(** The words after the type, in any order, and the name. *)
Fixpoint var_words (fuel : nat) (v : svar) (ts : list token) : option (svar * list token) :=
  match fuel with
  | O => None
  | S fuel =>
      let (t, vis, con, idx, ovr, imm, loc, _, val) := v in
      match ts with
      | KWord w :: r =>
          if smem w ["public"; "private"; "internal"] then var_words fuel (SVar t w con idx ovr imm loc "" val) r
          else if w =?s "constant" then var_words fuel (SVar t vis true idx ovr imm loc "" val) r
          else if w =?s "indexed" then var_words fuel (SVar t vis con true ovr imm loc "" val) r
          else if w =?s "override" then
            then_ (override_list fuel r) (fun l r => var_words fuel (SVar t vis con idx (Some l) imm loc "" val) r)
          else if w =?s "immutable" then var_words fuel (SVar t vis con idx ovr true loc "" val) r
          else if smem w location_words then var_words fuel (SVar t vis con idx ovr imm w "" val) r
          else let (x, r) := maybe_ident ts in Some (SVar t vis con idx ovr imm loc x val, r)
      | _ => Some (v, ts)
      end
  end.

Definition with_value (v : svar) (e : option sexp) : svar :=
  let (t, vis, con, idx, ovr, imm, loc, x, _) := v in SVar t vis con idx ovr imm loc x e.

(** A parameter, a member of a structure. *)
Definition param (fuel : nat) : parser svar := fun ts =>
  then_ (typ fuel (expr fuel 3) ts) (fun t r => var_words fuel (bare t) r).
Definition params (fuel : nat) : parser (list svar) := fun ts => after (sym "(" ts) (items fuel (param fuel) ")").

(** A variable of the state, with its value. *)
Definition state_var (fuel : nat) : parser svar := fun ts =>
  then_ (param fuel ts) (fun v r =>
    match sym "=" r with
    | Some r => then_ (expr fuel 3 r) (fun e r => after (sym ";" r) (fun r => Some (with_value v (Some e), r)))
    | None => after (sym ";" r) (fun r => Some (v, r))
    end).

(** ** Statements *)

(** An expression that turns out to be a type, because a word follows it. *)
Fixpoint as_type (e : sexp) : option sexp :=
  match e with
  | XType x => if x =?s "payable" then None else Some (TName x false)
  | XId x => Some (TUser x)
  | XMember a x => match as_type a with Some (TUser p) => Some (TUser (String.append p (String "." x))) | _ => None end
  | XIndex a i => match as_type a with Some t => Some (TArr t i) | None => None end
  | _ => None
  end.

(** Where only a type can begin. *)
Definition type_begins (ts : list token) : bool :=
  match ts with
  | KWord w :: r =>
      (w =?s "mapping") || (w =?s "function") || (w =?s "address") && match r with KWord p :: _ => p =?s "payable" | _ => false end
  | _ => false
  end.

(** The declaration of a variable in a function, without a value: [None] if it
    is something else. *)
Definition local_var (fuel : nat) : parser svar := fun ts =>
  if type_begins ts then param fuel ts
  else
    then_ (expr fuel 3 ts) (fun e r =>
      match r, as_type e with
      | KWord _ :: _, Some t => var_words fuel (bare t) r
      | _, _ => None
      end).

(** The declarations of a tuple of variables. *)
Definition local_vars (fuel : nat) : parser (list (option svar)) := fun ts =>
  after (sym "(" ts) (fun r =>
    then_ (items1 fuel (hole (local_var fuel) ")") ")" r) (fun l r =>
      if existsb (fun o => match o with Some _ => true | None => false end) l then Some (l, r) else None)).

(** Declarations, and expressions. *)
Definition simple_stmt (fuel : nat) : parser sstmt := fun ts =>
  match local_vars fuel ts with
  | Some (l, r) => after (sym "=" r) (fun r => then_ (expr fuel 3 r) (fun e r => after (sym ";" r) (fun r => Some (CVar l (Some e), r))))
  | None =>
      match local_var fuel ts with
      | Some (v, r) =>
          match sym "=" r with
          | Some r => then_ (expr fuel 3 r) (fun e r => after (sym ";" r) (fun r => Some (CVar [Some v] (Some e), r)))
          | None => after (sym ";" r) (fun r => Some (CVar [Some v] None, r))
          end
      | None => then_ (expr fuel 3 ts) (fun e r => after (sym ";" r) (fun r => Some (CExp e, r)))
      end
  end.

(** An expression, or nothing, before a closing symbol. *)
Definition maybe_expr (fuel : nat) (close : string) : parser (option sexp) := fun ts =>
  match sym close ts with
  | Some r => Some (None, r)
  | None => then_ (expr fuel 3 ts) (fun e r => after (sym close r) (fun r => Some (Some e, r)))
  end.

(** One "catch" after the other. *)
Fixpoint catches (fuel : nat) (k : nat) (block : parser sstmt) (ts : list token) :
  option (list (string * option (list svar) * sstmt) * list token) :=
  match fuel with
  | O => None
  | S fuel =>
      match word "catch" ts with
      | Some r =>
          let (x, r) := maybe_ident r in
          match sym "(" r with
          | Some r =>
              then_ (items k (param k) ")" r) (fun ps r => then_ (block r) (fun b r => then_ (catches fuel k block r) (fun l r =>
                Some ((x, Some ps, b) :: l, r))))
          | None => then_ (block r) (fun b r => then_ (catches fuel k block r) (fun l r => Some ((x, None, b) :: l, r)))
          end
      | None => Some ([], ts)
      end
  end.

Definition block_of (fuel : nat) (stmt : parser sstmt) : parser sstmt := fun ts =>
  after (sym "{" ts) (fun r => then_ (until fuel stmt "}" r) (fun l r => Some (CBlock false l, r))).

Fixpoint stmt (fuel : nat) (ts : list token) {struct fuel} : option (sstmt * list token) :=
  match fuel with
  | O => None
  | S fuel =>
      let condition r := after (sym "(" r) (fun r => then_ (expr fuel 3 r) (fun e r => after (sym ")" r) (fun r => Some (e, r)))) in
      let ended (c : sexp -> sstmt) r := then_ (expr fuel 3 r) (fun e r => after (sym ";" r) (fun r => Some (c e, r))) in
      let block := block_of fuel (stmt fuel) in
      match ts with
      | KSym s :: r => if s =?s "{" then block ts else simple_stmt fuel ts
      | KWord w :: r =>
          if w =?s "unchecked" then then_ (block r) (fun b r => match b with CBlock _ l => Some (CBlock true l, r) | _ => None end)
          else if w =?s "if" then
            then_ (condition r) (fun e r => then_ (stmt fuel r) (fun yes r =>
              match word "else" r with
              | Some r => then_ (stmt fuel r) (fun no r => Some (CIf e yes (Some no), r))
              | None => Some (CIf e yes None, r)
              end))
          else if w =?s "while" then then_ (condition r) (fun e r => then_ (stmt fuel r) (fun b r => Some (CWhile e b, r)))
          else if w =?s "do" then
            then_ (stmt fuel r) (fun b r => after (word "while" r) (fun r => then_ (condition r) (fun e r =>
              after (sym ";" r) (fun r => Some (CDo b e, r)))))
          else if w =?s "for" then
            after (sym "(" r) (fun r =>
              then_ match sym ";" r with
                    | Some r => Some (None, r)
                    | None => then_ (simple_stmt fuel r) (fun s r => Some (Some s, r))
                    end (fun init r =>
              then_ (maybe_expr fuel ";" r) (fun e r => then_ (maybe_expr fuel ")" r) (fun loop r =>
                then_ (stmt fuel r) (fun b r => Some (CFor init e loop b, r))))))
          else if w =?s "return" then then_ (maybe_expr fuel ";" r) (fun e r => Some (CReturn e, r))
          else if w =?s "emit" then ended CEmit r
          else if (w =?s "revert") && match r with KWord _ :: _ => true | _ => false end then ended CRevert r
          else if smem w ["break"; "continue"; "_"] then after (sym ";" r) (fun r => Some (CWord w, r))
          else if w =?s "try" then
            then_ (expr fuel 3 r) (fun e r =>
              then_ match word "returns" r with Some r => params fuel r | None => Some ([], r) end (fun rs r =>
                then_ (block r) (fun b r => then_ (catches fuel fuel block r) (fun cs r => Some (CTry e rs b cs, r)))))
          else simple_stmt fuel ts
      | _ => simple_stmt fuel ts
      end
  end.

(** ** Members of contracts *)

Definition body_of (fuel : nat) : parser (option sstmt) := fun ts =>
  match sym ";" ts with
  | Some r => Some (None, r)
  | None => then_ (block_of fuel (stmt fuel) ts) (fun b r => Some (Some b, r))
  end.

(** A modifier or a base with its arguments. *)
Definition invocation (fuel : nat) : parser (sexp * option (list sexp)) := fun ts =>
  then_ (path ts) (fun x r =>
    match sym "(" r with
    | Some r => then_ (items fuel (expr fuel 3) ")" r) (fun l r => Some ((XId x, Some l), r))
    | None => Some ((XId x, None), r)
    end).

(** What stands between the parameters of a function and its results, in any order. *)
Record marks : Type := Marks {
  mk_visibility : string; mk_virtual : bool; mk_mutability : string; mk_override : option (list sexp);
  mk_modifiers : list (sexp * option (list sexp)) }.

Fixpoint fun_words (fuel : nat) (k : nat) (m : marks) (ts : list token) : option (marks * list token) :=
  match fuel with
  | O => None
  | S fuel =>
      let (vis, vir, mut, ovr, mods) := m in
      match ts with
      | KWord w :: r =>
          if smem w ["public"; "private"; "internal"; "external"] then fun_words fuel k (Marks w vir mut ovr mods) r
          else if w =?s "virtual" then fun_words fuel k (Marks vis true mut ovr mods) r
          else if smem w mutability_words then fun_words fuel k (Marks vis vir w ovr mods) r
          else if w =?s "override" then then_ (override_list k r) (fun l r => fun_words fuel k (Marks vis vir mut (Some l) mods) r)
          else if w =?s "returns" then Some (m, ts)
          else then_ (invocation k ts) (fun i r => fun_words fuel k (Marks vis vir mut ovr (mods ++ [i])) r)
      | _ => Some (m, ts)
      end
  end.

(** From the parameters on. *)
Definition function_of (fuel : nat) (kind x : string) : parser smember := fun ts =>
  then_ (params fuel ts) (fun ps r =>
  then_ (fun_words fuel fuel (Marks "" false "" None []) r) (fun m r =>
  then_ match word "returns" r with Some r => params fuel r | None => Some ([], r) end (fun rs r =>
  then_ (body_of fuel r) (fun b r =>
    Some (MFun (SFun kind x ps (mk_visibility m) (mk_virtual m) (mk_mutability m) (mk_override m) (mk_modifiers m) rs b), r))))).

Definition for_of (fuel : nat) : parser (option sexp * bool) := fun ts =>
  after (word "for" ts) (fun r =>
    then_ match sym "*" r with
          | Some r => Some (None, r)
          | None => then_ (typ fuel (expr fuel 3) r) (fun t r => Some (Some t, r))
          end (fun t r =>
      let (g, r) := maybe_word ["global"] r in after (sym ";" r) (fun r => Some ((t, g =?s "global"), r)))).

(** f, f as + *)
Definition using_fun : parser (string * option string) := fun ts =>
  then_ (path ts) (fun x r =>
    match word "as" r with
    | Some r => match r with KSym op :: r => Some ((x, Some op), r) | _ => None end
    | None => Some ((x, None), r)
    end).

Definition member (fuel : nat) : parser smember := fun ts =>
  let variable := then_ (state_var fuel ts) (fun v r => Some (MVar v, r)) in
  match ts with
  | KWord w :: r =>
      if w =?s "function" then
        match ident r with Some (x, r) => function_of fuel w x r | None => variable end
      else if smem w ["constructor"; "receive"; "fallback"] then function_of fuel w "" r
      else if w =?s "modifier" then
        then_ (ident r) (fun f r => then_ (params fuel r) (fun ps r =>
          then_ (fun_words fuel fuel (Marks "" false "" None []) r) (fun m r => then_ (body_of fuel r) (fun b r =>
            match m with
            | Marks "" vir "" ovr [] => Some (MModifier f ps vir ovr b, r)
            | _ => None
            end))))
      else if w =?s "event" then
        then_ (ident r) (fun f r => then_ (params fuel r) (fun ps r =>
          let (a, r) := maybe_word ["anonymous"] r in after (sym ";" r) (fun r => Some (MEvent f ps (a =?s "anonymous"), r))))
      else if (w =?s "error") && match r with KWord _ :: KSym s :: _ => s =?s "(" | _ => false end then
        then_ (ident r) (fun f r => then_ (params fuel r) (fun ps r => after (sym ";" r) (fun r => Some (MError f ps, r))))
      else if w =?s "struct" then
        then_ (ident r) (fun f r => after (sym "{" r) (fun r =>
          then_ (until fuel (fun ts => then_ (param fuel ts) (fun v r => after (sym ";" r) (fun r => Some (v, r)))) "}" r) (fun l r =>
            Some (MStruct f l, r))))
      else if w =?s "enum" then
        then_ (ident r) (fun f r => after (sym "{" r) (fun r => then_ (items fuel ident "}" r) (fun l r => Some (MEnum f l, r))))
      else if w =?s "type" then
        then_ (ident r) (fun f r => after (word "is" r) (fun r => then_ (typ fuel (expr fuel 3) r) (fun t r =>
          after (sym ";" r) (fun r => Some (MType f t, r)))))
      else if w =?s "using" then
        match sym "{" r with
        | Some r => then_ (items1 fuel using_fun "}" r) (fun l r => then_ (for_of fuel r) (fun t r => Some (MUsingFuns l (fst t) (snd t), r)))
        | None => then_ (path r) (fun x r => then_ (for_of fuel r) (fun t r => Some (MUsing (XId x) (fst t) (snd t), r)))
        end
      else variable
  | _ => variable
  end.

(** ** Source files *)

Definition version_signs : list string := ["<"; "<="; ">="; ">"; "^"].

(** The pieces of a version. *)
Fixpoint version_pieces (ts : list token) : list string * list token :=
  match ts with
  | KNum p :: r => let (l, r) := version_pieces r in (p :: l, r)
  | _ => ([], ts)
  end.
Definition version : parser (string * list string) := fun ts =>
  match ts with
  | KSym s :: r => if smem s version_signs then let (l, r) := version_pieces r in Some ((s, l), r) else None
  | KNum _ :: _ => let (l, r) := version_pieces ts in Some (("", l), r)
  | _ => None
  end.

(** f, f as g *)
Definition import_name : parser (string * option string) := fun ts =>
  then_ (ident ts) (fun x r =>
    match word "as" r with
    | Some r => then_ (ident r) (fun a r => Some ((x, Some a), r))
    | None => Some ((x, None), r)
    end).

Definition top_level (fuel : nat) : parser stop := fun ts =>
  match ts with
  | KWord w :: r =>
      if w =?s "pragma" then
        match r with
        | KWord p :: r =>
            if p =?s "solidity" then then_ (until fuel version ";" r) (fun l r => Some (PSolidity l, r))
            else then_ (ident r) (fun x r => after (sym ";" r) (fun r => Some (PWord p x, r)))
        | _ => None
        end
      else if w =?s "import" then
        match r with
        | KText f :: r =>
            match word "as" r with
            | Some r => then_ (ident r) (fun a r => after (sym ";" r) (fun r => Some (PImport f [] (Some a), r)))
            | None => after (sym ";" r) (fun r => Some (PImport f [] None, r))
            end
        | _ =>
            after (sym "{" r) (fun r => then_ (items1 fuel import_name "}" r) (fun l r => after (word "from" r) (fun r =>
              match r with KText f :: r => after (sym ";" r) (fun r => Some (PImport f l None, r)) | _ => None end)))
        end
      else
        let (a, r) := maybe_word ["abstract"] ts in
        let (kind, r) := maybe_word ["contract"; "interface"; "library"] r in
        if kind =?s "" then then_ (member fuel ts) (fun m r => Some (PMember m, r))
        else
          then_ (ident r) (fun f r =>
            then_ match word "is" r with
                  | Some r => items1 fuel (invocation fuel) "{" r
                  | None => after (sym "{" r) (fun r => Some ([], r))
                  end (fun bases r =>
              then_ (until fuel (member fuel) "}" r) (fun l r => Some (PContract (a =?s "abstract") kind f bases l, r))))
  | _ => then_ (member fuel ts) (fun m r => Some (PMember m, r))
  end.

Fixpoint tops (fuel : nat) (k : nat) (ts : list token) : option (list stop) :=
  match fuel with
  | O => None
  | S fuel =>
      match ts with
      | [] => Some []
      | _ => then_ (top_level k ts) (fun p r => option_map (cons p) (tops fuel k r))
      end
  end.

Definition read_unit (fuel : nat) (s : string) : option (list stop) :=
  match lex fuel s with Some ts => tops fuel fuel ts | None => None end.

(** The text is that of the program: there is one reading of it. *)
Definition reads (s : string) (l : list stop) : Prop := exists enough, forall fuel, enough <= fuel -> read_unit fuel s = Some l.

(** ** The programs that are spelled as programs are

    Names are names, numbers are numbers, types stand where types belong, and
    an operand that is itself an operation is in parentheses (a tuple of one)
    where the grammar needs them, as in every tree of the compiler. *)

Definition every : (ascii -> bool) -> string -> bool := SpecVyRead.every.
Definition wordy (x : string) : bool := match x with EmptyString => false | String c r => letter c && every wordchar r end.
Definition name (x : string) : bool := wordy x && negb (reserved x).

(** The words between the dots. *)
Fixpoint parts (s : string) : list string :=
  match s with
  | EmptyString => [""]
  | String c r =>
      if Ascii.eqb c "." then "" :: parts r
      else match parts r with p :: l => String c p :: l | [] => [String c ""] end
  end.
Definition path_name (x : string) : bool := forallb name (parts x).

Definition numeral (s : string) : bool :=
  match s with
  | EmptyString => false
  | String c _ => (digit c || Ascii.eqb c ".") && (snd (number s) =?s "")
  end.

Definition is_type (e : sexp) : bool := match e with TName _ _ | TUser _ | TMap _ _ _ _ | TArr _ _ | TFun _ _ _ _ => true | _ => false end.
Fixpoint plain_type (e : sexp) : bool := match e with TName _ _ | TUser _ => true | TArr t _ => plain_type t | _ => false end.
Definition is_new (e : sexp) : bool := match e with XNew _ => true | _ => false end.
Definition is_bare (e : sexp) : bool := match e with XLit _ None => true | _ => false end.
Definition some {A} (l : list A) : bool := match l with [] => false | _ => true end.
Definition maybe {A} (p : A -> bool) (o : option A) : bool := match o with Some a => p a | None => true end.
Definition blank_or (p : string -> bool) (s : string) : bool := (s =?s "") || p s.

Fixpoint spelled (e : sexp) : bool :=
  let ex e := negb (is_type e) && spelled e in
  let ty e := is_type e && spelled e in
  let param (p : sexp * string * string) :=
    ty (fst (fst p)) && blank_or (fun l => smem l location_words) (snd (fst p)) && blank_or name (snd p) in
  match e with
  | XId x => name x || (x =?s "type")
  | XLit s None => numeral s || smem s ["true"; "false"]
  | XLit s (Some u) => numeral s && smem u units
  | XStr _ | XHex _ => true
  | XUnicode s => every (fun c => (32 <=? N_of_ascii c)%N) s
  | XBin op a b =>
      smem op binary_ops && Nat.leb (left_needs op) (tightness a) && Nat.leb (right_needs op) (tightness b) && ex a && ex b
  | XPre op a => smem op ("delete" :: prefixes) && Nat.leb 15 (tightness a) && ex a
  | XPost op a => smem op ["++"; "--"] && Nat.leb 16 (tightness a) && ex a
  | XCond c a b => Nat.leb 4 (tightness c) && ex c && ex a && ex b
  | XAssign op a b => smem op assignments && Nat.leb 4 (tightness a) && ex a && ex b
  | XCall f args => Nat.leb 16 (tightness f) && ex f && forallb ex args
  | XNamed f args => Nat.leb 16 (tightness f) && ex f && forallb (fun kv => name (fst kv) && ex (snd kv)) args
  | XOpts f opts => Nat.leb 16 (tightness f) && ex f && some opts && forallb (fun kv => name (fst kv) && ex (snd kv)) opts
  | XMember a x => Nat.leb 16 (tightness a) && negb (is_new a) && negb (is_bare a) && ex a && (name x || (x =?s "address"))
  | XIndex a i => Nat.leb 16 (tightness a) && negb (is_new a) && ex a && match i with Some i => ex i | None => true end
  | XSlice a i j =>
      Nat.leb 16 (tightness a) && negb (is_new a) && ex a && match i with Some i => ex i | None => true end &&
      match j with Some j => ex j | None => true end
  | XTuple l =>
      match l with [None] => false | _ => true end && forallb (fun o => match o with Some e => ex e | None => true end) l
  | XArray l => some l && forallb ex l
  | XNew t => plain_type t && ty t
  | XType t => elementary t || (t =?s "payable")
  | TName x payable => elementary x && (negb payable || (x =?s "address"))
  | TUser x => path_name x
  | TMap k kn v vn => ty k && blank_or name kn && ty v && blank_or name vn
  | TArr t len => ty t && match len with Some e => ex e | None => true end
  | TFun ps _ m rs => forallb param ps && blank_or (fun m => smem m mutability_words) m && forallb param rs
  end.
Definition exp_spelled (e : sexp) : bool := negb (is_type e) && spelled e.
Definition type_spelled (e : sexp) : bool := is_type e && spelled e.
Definition path_spelled (e : sexp) : bool := match e with XId x => path_name x | _ => false end.

Definition var_spelled (v : svar) : bool :=
  type_spelled (sv_type v) && smem (sv_visibility v) [""; "public"; "private"] && maybe (forallb path_spelled) (sv_override v) &&
  blank_or (fun l => smem l location_words) (sv_location v) && blank_or name (sv_name v).
Definition param_spelled (v : svar) : bool := var_spelled v && match sv_value v with None => true | Some _ => false end.
(** A type of these names is taken for something else at the beginning of a declaration. *)
Definition odd_type (t : sexp) : bool := match t with TUser x => smem x ["error"; "revert"] | _ => false end.
Definition state_spelled (v : svar) : bool := var_spelled v && negb (odd_type (sv_type v)) && maybe exp_spelled (sv_value v).
Definition local_spelled (v : svar) : bool :=
  param_spelled v && negb (odd_type (sv_type v)) && name (sv_name v) && (sv_visibility v =?s "") && negb (sv_constant v) && negb (sv_indexed v) && negb (sv_immutable v) &&
  match sv_override v with None => true | Some _ => false end.

(** An expression that begins with a name. *)
Fixpoint begins_id (e : sexp) : bool :=
  match e with XId _ => true | XMember a _ | XCall a _ | XNamed a _ => begins_id a | _ => false end.

Definition is_simple (s : sstmt) : bool := match s with CExp _ | CVar _ _ => true | _ => false end.

(** No "else" is ambiguous; a "try" has results. *)
Fixpoint stmt_spelled (s : sstmt) : bool :=
  match s with
  | CExp e | CEmit e => exp_spelled e
  | CVar [Some v] e => local_spelled v && maybe exp_spelled e
  | CVar l e =>
      Nat.ltb 1 (length l) && existsb (fun o => match o with Some _ => true | None => false end) l && forallb (maybe local_spelled) l &&
      match e with Some e => exp_spelled e | None => false end
  | CBlock _ l => forallb stmt_spelled l
  | CIf e yes no =>
      exp_spelled e && stmt_spelled yes && match no with Some no => (is_cblock yes || negb (open_if yes)) && stmt_spelled no | None => true end
  | CWhile e s => exp_spelled e && stmt_spelled s
  | CDo s e => exp_spelled e && stmt_spelled s
  | CFor init e loop s =>
      match init with Some i => is_simple i && stmt_spelled i | None => true end && maybe exp_spelled e && maybe exp_spelled loop &&
      stmt_spelled s
  | CReturn e => maybe exp_spelled e
  | CRevert e => begins_id e && exp_spelled e
  | CWord w => smem w ["break"; "continue"; "_"]
  | CTry e rs s clauses =>
      exp_spelled e && some rs && forallb param_spelled rs && is_cblock s && stmt_spelled s &&
      forallb (fun c => match snd (fst c) with
                        | Some ps => blank_or name (fst (fst c)) && forallb param_spelled ps
                        | None => fst (fst c) =?s ""
                        end && is_cblock (snd c) && stmt_spelled (snd c)) clauses
  end.

Definition body_spelled (b : option sstmt) : bool := maybe (fun s => is_cblock s && stmt_spelled s) b.
Definition call_spelled (m : sexp * option (list sexp)) : bool := path_spelled (fst m) && maybe (forallb exp_spelled) (snd m).

Definition fun_spelled (f : sfun) : bool :=
  (if sf_kind f =?s "function" then name (sf_name f) else smem (sf_kind f) ["constructor"; "receive"; "fallback"] && (sf_name f =?s "")) &&
  forallb param_spelled (sf_params f) && smem (sf_visibility f) [""; "public"; "private"; "internal"; "external"] &&
  blank_or (fun m => smem m mutability_words) (sf_mutability f) && maybe (forallb path_spelled) (sf_override f) &&
  forallb call_spelled (sf_modifiers f) && forallb param_spelled (sf_returns f) && body_spelled (sf_body f).

Definition defined_operators : list string := ["&"; "|"; "^"; "~"; "+"; "-"; "*"; "/"; "%"; "=="; "!="; "<"; "<="; ">"; ">="].

Definition member_spelled (m : smember) : bool :=
  match m with
  | MVar v => state_spelled v
  | MFun f => fun_spelled f
  | MModifier f ps _ override body => name f && forallb param_spelled ps && maybe (forallb path_spelled) override && body_spelled body
  | MEvent f ps _ | MError f ps => name f && forallb param_spelled ps
  | MStruct f l => name f && forallb param_spelled l
  | MEnum f l => name f && forallb name l
  | MType f t => name f && type_spelled t
  | MUsing lib t _ => path_spelled lib && maybe type_spelled t
  | MUsingFuns l t _ =>
      some l && forallb (fun p => path_name (fst p) && maybe (fun op => smem op defined_operators) (snd p)) l && maybe type_spelled t
  end.

(** 0.8 and then .13 *)
Definition digits (s : string) : bool := negb (s =?s "") && every digit s.
Definition dot_digits (s : string) : bool := match s with String c r => Ascii.eqb c "." && digits r | EmptyString => false end.
Definition two_digits (s : string) : bool := let (a, b) := span digit s in digits a && dot_digits b.
Definition pieces_spelled (l : list string) : bool :=
  match l with
  | [] => false
  | [p] => digits p || two_digits p
  | p :: more => two_digits p && forallb dot_digits more
  end.

Definition plain_char (c : ascii) : bool := ((32 <=? N_of_ascii c) && (N_of_ascii c <? 127))%N && negb (Ascii.eqb c """") && negb (Ascii.eqb c "\").

Definition top_spelled (p : stop) : bool :=
  match p with
  | PWord w x => name w && name x && negb (w =?s "solidity")
  | PSolidity l =>
      forallb (fun v => blank_or (fun s => smem s version_signs) (fst v) && pieces_spelled (snd v)) l &&
      forallb (fun v => negb (fst v =?s "")) (tl l)
  | PImport file names alias =>
      every plain_char file && forallb (fun p => name (fst p) && maybe name (snd p)) names && maybe name alias &&
      match names, alias with _ :: _, Some _ => false | _, _ => true end
  | PContract _ kind f bases l =>
      smem kind ["contract"; "interface"; "library"] && name f && forallb call_spelled bases && forallb member_spelled l
  | PMember m => member_spelled m
  end.
