(** Reading inline assembly: the grammar of the compiler's parser for Yul, and
    the programs that are spelled as assembly is.  The tokens are those of
    Solidity (SpecSolRead.v), so [:=] is two of them and a name with dots is
    several.  Independent of the printer and of the texts of SpecYul.v. *)
From Coq Require Import String Ascii List NArith Bool.
From Verif Require Import Base Json SpecLiteral SpecVyText SpecSolText SpecSolRead SpecYul.
Import ListNotations.
Open Scope string_scope.
Open Scope list_scope.

Definition yul_words : list string :=
  ["let"; "if"; "switch"; "case"; "default"; "for"; "function"; "break"; "continue"; "leave"; "true"; "false"; "hex"].

(** x, x.slot *)
Fixpoint asm_dots (ts : list token) : string * list token :=
  match ts with
  | KSym s :: (KWord x :: r) => if s =?s "." then let (p, r) := asm_dots r in (String "." (String.append x p), r) else ("", ts)
  | _ => ("", ts)
  end.
Definition asm_name : parser string := fun ts =>
  match ts with
  | KWord x :: r => if smem x yul_words then None else let (p, r) := asm_dots r in Some (String.append x p, r)
  | _ => None
  end.
Fixpoint asm_names (fuel : nat) (ts : list token) : option (list string * list token) :=
  match fuel with
  | O => None
  | S fuel =>
      then_ (asm_name ts) (fun x r =>
        match sym "," r with
        | Some r => then_ (asm_names fuel r) (fun l r => Some (x :: l, r))
        | None => Some ([x], r)
        end)
  end.

Fixpoint asm_expr (fuel : nat) (ts : list token) {struct fuel} : option (yexp * list token) :=
  match fuel with
  | O => None
  | S fuel =>
      match ts with
      | KNum s :: r => Some (YLit s, r)
      | KText s :: r => Some (YStr s, r)
      | KHex s :: r => Some (YHex s, r)
      | KWord w :: r =>
          if smem w ["true"; "false"] then Some (YLit w, r)
          else then_ (asm_name ts) (fun x r =>
                 match sym "(" r with
                 | Some r => then_ (items fuel (asm_expr fuel) ")" r) (fun l r => Some (YCall x l, r))
                 | None => Some (YName x, r)
                 end)
      | _ => None
      end
  end.

Definition becomes (ts : list token) : option (list token) := after (sym ":" ts) (sym "=").

Definition asm_block (fuel : nat) (statement : parser ystmt) : parser (list ystmt) := fun ts => after (sym "{" ts) (until fuel statement "}").

(** case e {...} default {...} *)
Fixpoint asm_cases (fuel depth : nat) (block : parser (list ystmt)) (ts : list token) : option (list (option yexp * list ystmt) * list token) :=
  match fuel with
  | O => None
  | S fuel =>
      match word "case" ts, word "default" ts with
      | Some r, _ =>
          then_ (asm_expr depth r) (fun e r => then_ (block r) (fun l r => then_ (asm_cases fuel depth block r) (fun cs r => Some ((Some e, l) :: cs, r))))
      | None, Some r => then_ (block r) (fun l r => then_ (asm_cases fuel depth block r) (fun cs r => Some ((None, l) :: cs, r)))
      | None, None => Some ([], ts)
      end
  end.

Fixpoint asm_stmt (fuel : nat) (ts : list token) {struct fuel} : option (ystmt * list token) :=
  match fuel with
  | O => None
  | S fuel =>
      let block := asm_block fuel (asm_stmt fuel) in
      match ts with
      | KSym _ :: _ => then_ (block ts) (fun l r => Some (YBlock l, r))
      | KWord w :: r =>
          if w =?s "let" then
            then_ (asm_names fuel r) (fun xs r =>
              match becomes r with
              | Some r => then_ (asm_expr fuel r) (fun e r => Some (YLet xs (Some e), r))
              | None => Some (YLet xs None, r)
              end)
          else if w =?s "if" then then_ (asm_expr fuel r) (fun e r => then_ (block r) (fun l r => Some (YIf e l, r)))
          else if w =?s "switch" then
            then_ (asm_expr fuel r) (fun e r => then_ (asm_cases fuel fuel block r) (fun cs r =>
              match cs with [] => None | _ => Some (YSwitch e cs, r) end))
          else if w =?s "for" then
            then_ (block r) (fun pre r => then_ (asm_expr fuel r) (fun e r => then_ (block r) (fun post r => then_ (block r) (fun l r =>
              Some (YFor pre e post l, r)))))
          else if w =?s "function" then
            then_ (asm_name r) (fun f r => after (sym "(" r) (fun r => then_ (items fuel asm_name ")" r) (fun ps r =>
              then_ match sym "->" r with Some r => asm_names fuel r | None => Some ([], r) end (fun rs r =>
                then_ (block r) (fun l r => Some (YFun f ps rs l, r))))))
          else if smem w ["break"; "continue"; "leave"] then Some (YWord w, r)
          else then_ (asm_name ts) (fun _ after_name =>
                 match sym "(" after_name with
                 | Some _ => then_ (asm_expr fuel ts) (fun e r => Some (YExp e, r))
                 | None => then_ (asm_names fuel ts) (fun xs r => after (becomes r) (fun r => then_ (asm_expr fuel r) (fun e r => Some (YSet xs e, r))))
                 end)
      | _ => None
      end
  end.

(** assembly ("flag") {...} *)
Definition flag : parser string := fun ts => match ts with KText s :: r => Some (s, r) | _ => None end.
Definition assembly (fuel : nat) : parser (list string * list ystmt) := fun ts =>
  after (word "assembly" ts) (fun r =>
    then_ match sym "(" r with Some r => items1 fuel flag ")" r | None => Some ([], r) end (fun flags r =>
      then_ (asm_block fuel (asm_stmt fuel) r) (fun l r => Some ((flags, l), r)))).

(** Statements and assembly, in braces. *)
Definition mixed_stmt (fuel : nat) : parser mixed := fun ts =>
  match word "assembly" ts with
  | Some _ => then_ (assembly fuel ts) (fun a r => Some (Asm (fst a) (snd a), r))
  | None => then_ (stmt fuel ts) (fun s r => Some (Usual s, r))
  end.
Definition read_block (fuel : nat) (s : string) : option (list mixed) :=
  match lex fuel s with
  | Some ts => match after (sym "{" ts) (until fuel (mixed_stmt fuel) "}") with Some (l, []) => Some l | _ => None end
  | None => None
  end.
Definition reads_block (s : string) (l : list mixed) : Prop := exists enough, forall fuel, enough <= fuel -> read_block fuel s = Some l.

(** ** Spelling *)

Definition yname_spelled (x : string) : bool := forallb wordy (parts x) && negb (smem (List.hd "" (parts x)) yul_words).

Fixpoint yexp_spelled (e : yexp) : bool :=
  match e with
  | YName x => yname_spelled x
  | YLit s => numeral s || smem s ["true"; "false"]
  | YStr _ | YHex _ => true
  | YCall f args => yname_spelled f && forallb yexp_spelled args
  end.

Definition is_call (e : yexp) : bool := match e with YCall _ _ => true | _ => false end.

Fixpoint yul_spelled (s : ystmt) : bool :=
  match s with
  | YExp e => is_call e && yexp_spelled e
  | YLet xs e => some xs && forallb yname_spelled xs && maybe yexp_spelled e
  | YSet xs e => some xs && forallb yname_spelled xs && yexp_spelled e
  | YBlock l => forallb yul_spelled l
  | YIf e l => yexp_spelled e && forallb yul_spelled l
  | YSwitch e cs => yexp_spelled e && some cs && forallb (fun c => maybe yexp_spelled (fst c) && forallb yul_spelled (snd c)) cs
  | YFor pre e post l => forallb yul_spelled pre && yexp_spelled e && forallb yul_spelled post && forallb yul_spelled l
  | YFun f ps rs l => yname_spelled f && forallb yname_spelled ps && forallb yname_spelled rs && forallb yul_spelled l
  | YWord w => smem w ["break"; "continue"; "leave"]
  end.

Definition mixed_spelled (m : mixed) : bool :=
  match m with Usual s => stmt_spelled s | Asm flags l => forallb yul_spelled l end.
