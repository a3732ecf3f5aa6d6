(** Inline assembly: the language (Yul), its text and its nodes in the trees of
    the Solidity compiler.  Independent of the printer. *)
From Coq Require Import String Ascii List NArith Bool.
From Verif Require Import Base Json SpecPrinter SpecLiteral SpecVyText SpecSolText.
Import ListNotations.
Open Scope string_scope.
Open Scope list_scope.

Inductive yexp : Type :=
| YName (x : string)
| YLit (s : string)                                  (* 12, 0x1f, true *)
| YStr (s : string)
| YHex (bs : string)                                 (* hex"00ff" *)
| YCall (f : string) (args : list yexp).

Inductive ystmt : Type :=
| YExp (e : yexp)
| YLet (xs : list string) (e : option yexp)          (* let x, y := e *)
| YSet (xs : list string) (e : yexp)                 (* x, y := e *)
| YBlock (l : list ystmt)
| YIf (e : yexp) (body : list ystmt)
| YSwitch (e : yexp) (cases : list (option yexp * list ystmt))   (* no value: default *)
| YFor (pre : list ystmt) (e : yexp) (post body : list ystmt)
| YFun (f : string) (ps rs : list string) (body : list ystmt)
| YWord (w : string).                                (* break, continue, leave *)

(** ** Text *)

Fixpoint yetext (e : yexp) : string :=
  match e with
  | YName x => x
  | YLit s => s
  | YStr s => cat [""""; escaped s; """"]
  | YHex bs => cat ["hex"""; hex_encode bs; """"]
  | YCall f args => cat [f; "("; sjoin ", " (map yetext args); ")"]
  end.

(** [one]: a block of one statement stands on one line, as in the head of a
    loop. *)
Fixpoint ytext (tab ind : N) (one : bool) (s : ystmt) {struct s} : string :=
  let block ind one l :=
    let lines := cat ["{"; newline; sjoin newline (map (fun s => String.append (margin tab (ind + 1)) (ytext tab (ind + 1) one s)) l);
                      newline; margin tab ind; "}"] in
    match l with
    | [] => "{}"
    | [s] => if one then cat ["{ "; ytext tab ind one s; " }"] else lines
    | _ => lines
    end in
  match s with
  | YExp e => yetext e
  | YLet xs e => cat ["let "; sjoin ", " xs; otext e (fun e => String.append " := " (yetext e))]
  | YSet xs e => cat [sjoin ", " xs; " := "; yetext e]
  | YBlock l => block ind one l
  | YIf e l => cat ["if "; yetext e; " "; block ind one l]
  | YSwitch e cases =>
      cat ["switch "; yetext e; " ";
           cat (map (fun c => cat [newline; margin tab (ind + 1);
                                   match fst c with Some e => cat ["case "; yetext e] | None => "default" end; " ";
                                   block (ind + 1)%N one (snd c)]) cases)]
  | YFor pre e post l =>
      cat ["for"; newline; margin tab (ind + 1); block (ind + 1)%N true pre; newline; margin tab (ind + 1); yetext e;
           newline; margin tab (ind + 1); block (ind + 1)%N true post; newline; margin tab ind; block ind one l]
  | YFun f ps rs l =>
      cat ["function "; f; "("; sjoin ", " ps; ") ";
           match rs with [] => "" | _ => cat ["-> "; sjoin ", " rs; " "] end; block ind one l]
  | YWord w => w
  end.

Definition asm_text (tab ind : N) (flags : list string) (l : list ystmt) : string :=
  cat ["assembly "; match flags with [] => "" | _ => cat ["("; sjoin ", " (map (fun s => cat [""""; s; """"]) flags); ") "] end;
       ytext tab ind false (YBlock l)].

(** ** Nodes *)

Definition leaf (v : json) : Prop := match v with JArr _ | JObj _ => False | _ => True end.

Definition names_node (ty : string) (xs : list string) (ns : list json) : Prop :=
  Forall2 (fun x n => is_n n ty /\ fld n "name" (JStr x)) xs ns.

Fixpoint yenode (e : yexp) (n : json) {struct e} : Prop :=
  match e with
  | YName x => is_n n "YulIdentifier" /\ fld n "name" (JStr x)
  | YLit s => is_n n "YulLiteral" /\ (fld n "kind" (JStr "number") \/ fld n "kind" (JStr "bool")) /\ fld n "value" (JStr s)
  | YStr s => is_n n "YulLiteral" /\ fld n "kind" (JStr "string") /\ fld n "value" (JStr s)
  | YHex bs => is_n n "YulLiteral" /\ fld n "kind" (JStr "string") /\ fld n "hexValue" (JStr (hex_encode bs)) /\
      (fld n "value" (JStr bs) \/ gone n "value")
  | YCall f args =>
      is_n n "YulFunctionCall" /\ (exists v, fld n "functionName" v /\ is_n v "YulIdentifier" /\ fld v "name" (JStr f)) /\
      exists l, fld n "arguments" (JArr l) /\
        (fix go es ns := match es, ns with
                         | [], [] => True
                         | e :: es, n :: ns => yenode e n /\ go es ns
                         | _, _ => False
                         end) args l
  end.

Fixpoint ynode (s : ystmt) (n : json) {struct s} : Prop :=
  let value k e := exists v, fld n k v /\ yenode e v in
  let names k ty xs := exists ns, fld n k (JArr ns) /\ names_node ty xs ns in
  let block (b : json) l := is_n b "YulBlock" /\ exists ns, fld b "statements" (JArr ns) /\
    (fix go l ns := match l, ns with
                    | [], [] => True
                    | s :: l, n :: ns => ynode s n /\ go l ns
                    | _, _ => False
                    end) l ns in
  let body k l := exists b, fld n k b /\ block b l in
  match s with
  | YExp e =>
      (* the only field with something in it *)
      is_n n "YulExpressionStatement" /\ exists a k v b, n = JObj (a ++ (k, v) :: b) /\ yenode e v /\ Forall (fun p => leaf (snd p)) (a ++ b)
  | YLet xs e => is_n n "YulVariableDeclaration" /\ names "variables" "YulTypedName" xs /\
      match e with Some e => value "value" e | None => gone n "value" \/ fld n "value" JNull end
  | YSet xs e => is_n n "YulAssignment" /\ names "variableNames" "YulIdentifier" xs /\ value "value" e
  | YBlock l => block n l
  | YIf e l => is_n n "YulIf" /\ value "condition" e /\ body "body" l
  | YSwitch e cases =>
      is_n n "YulSwitch" /\ value "expression" e /\
      exists ns, fld n "cases" (JArr ns) /\
        (fix go (cs : list (option yexp * list ystmt)) ns :=
           match cs, ns with
           | [], [] => True
           | c :: cs, m :: ns =>
               (is_n m "YulCase" /\
                match fst c with Some e => exists v, fld m "value" v /\ yenode e v | None => fld m "value" (JStr "default") end /\
                exists b, fld m "body" b /\ block b (snd c)) /\ go cs ns
           | _, _ => False
           end) cases ns
  | YFor pre e post l => is_n n "YulForLoop" /\ body "pre" pre /\ value "condition" e /\ body "post" post /\ body "body" l
  | YFun f ps rs l =>
      is_n n "YulFunctionDefinition" /\ fld n "name" (JStr f) /\
      ((ps = [] /\ gone n "parameters") \/ names "parameters" "YulTypedName" ps) /\
      ((rs = [] /\ gone n "returnVariables") \/ names "returnVariables" "YulTypedName" rs) /\ body "body" l
  | YWord w => exists ty, In (ty, w) [("YulBreak", "break"); ("YulContinue", "continue"); ("YulLeave", "leave")] /\ is_n n ty
  end.

Definition asm_node (flags : list string) (l : list ystmt) (n : json) : Prop :=
  is_n n "InlineAssembly" /\ gone n "documentation" /\
  match flags with [] => gone n "flags" | _ => fld n "flags" (JArr (map JStr flags)) end /\
  exists b, fld n "AST" b /\ ynode (YBlock l) b.

(** ** The assembly the printer is up to

    Every variable has a value, no function has several results, no literal is
    in hexadecimal, no line break or character to be escaped is in a literal. *)

Fixpoint yeeasy (e : yexp) : Prop :=
  match e with
  | YName x => one_line x
  | YLit s => one_line s
  | YStr s => Forall simple_char (list_ascii_of_string s)
  | YHex _ => False
  | YCall f args => one_line f /\ (fix all l := match l with [] => True | e :: l => yeeasy e /\ all l end) args
  end.

Fixpoint yeasy (h : nat) (s : ystmt) {struct s} : Prop :=
  let block h l := l = [] \/ inside h (fun h => (fix go l := match l with [] => True | s :: l => yeasy h s /\ go l end) l) in
  match s with
  | YExp e => yeeasy e
  | YLet xs e => Forall one_line xs /\ match e with Some e => yeeasy e | None => False end
  | YSet xs e => Forall one_line xs /\ yeeasy e
  | YBlock l => block h l
  | YIf e l => yeeasy e /\ block h l
  | YSwitch e cases => yeeasy e /\ cases <> [] /\
      inside h (fun h => (fix go (cs : list (option yexp * list ystmt)) :=
        match cs with [] => True | c :: cs => (match fst c with Some e => yeeasy e | None => True end /\ block h (snd c)) /\ go cs end) cases)
  | YFor pre e post l => inside h (fun h => block h pre /\ yeeasy e /\ block h post) /\ block h l
  | YFun f ps rs l => one_line f /\ Forall one_line ps /\ length rs <= 1 /\ Forall one_line rs /\ block h l
  | YWord _ => True
  end.

Definition easy_flags (flags : list string) : Prop := Forall (fun s => Forall simple_char (list_ascii_of_string s)) flags.

(** ** A block of statements with assembly among them *)

Inductive mixed : Type := Usual (s : sstmt) | Asm (flags : list string) (l : list ystmt).
Definition mixed_text (tab ind : N) (m : mixed) : string :=
  match m with Usual s => ctext tab ind s | Asm flags l => asm_text tab ind flags l end.
Definition mixed_node (m : mixed) (n : json) : Prop :=
  match m with Usual s => cnode s n | Asm flags l => asm_node flags l n end.
Definition mixed_easy (h : nat) (m : mixed) : Prop :=
  match m with Usual s => ceasy h s | Asm flags l => easy_flags flags /\ yeasy h (YBlock l) end.

Definition mixed_block (tab ind : N) (l : list mixed) : string :=
  cat ["{"; newline; sjoin newline (map (fun m => String.append (margin tab (ind + 1)) (mixed_text tab (ind + 1) m)) l); newline; margin tab ind; "}"].
Definition mixed_block_node (l : list mixed) (n : json) : Prop :=
  is_n n "Block" /\ exists ns, fld n "statements" (JArr ns) /\ Forall2 mixed_node l ns.
