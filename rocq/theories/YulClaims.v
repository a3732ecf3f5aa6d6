(** Inline assembly: the claims. *)
From Coq Require Import String Ascii List NArith ZArith Bool Lia.
From Verif Require Import Base Json Printer SolPrinter Samples SpecPrinter SpecLiteral SpecVyText SpecSolText SpecYul
  TextFacts LayoutFacts EmitFacts SolEmit PrintFacts IdealFacts VyText VyTextStmt VyTextClaims SolText SolTextStmt SolTextTop SolTextClaims YulText.
Import ListNotations.
Open Scope string_scope.
Open Scope list_scope.

(** ** Nodes as the compiler writes them, as far as the printer looks at them *)

Definition jname (ty x : string) : json := nd ty [("name", JStr x)].

Fixpoint jye (e : yexp) : json :=
  match e with
  | YName x => jname "YulIdentifier" x
  | YLit s => nd "YulLiteral" [("kind", JStr (if (s =?s "true") || (s =?s "false") then "bool" else "number")); ("value", JStr s)]
  | YStr s => nd "YulLiteral" [("kind", JStr "string"); ("value", JStr s)]
  | YHex bs => nd "YulLiteral" [("kind", JStr "string"); ("hexValue", JStr (hex_encode bs))]
  | YCall f args => nd "YulFunctionCall" [("functionName", jname "YulIdentifier" f); ("arguments", JArr (map jye args))]
  end.

Fixpoint jy (s : ystmt) : json :=
  let block l := nd "YulBlock" [("statements", JArr (map jy l))] in
  match s with
  | YExp e => nd "YulExpressionStatement" [("expression", jye e)]
  | YLet xs e => nd "YulVariableDeclaration" [("variables", JArr (map (jname "YulTypedName") xs));
      ("value", match e with Some e => jye e | None => JNull end)]
  | YSet xs e => nd "YulAssignment" [("variableNames", JArr (map (jname "YulIdentifier") xs)); ("value", jye e)]
  | YBlock l => block l
  | YIf e l => nd "YulIf" [("condition", jye e); ("body", block l)]
  | YSwitch e cs => nd "YulSwitch" [("expression", jye e); ("cases", JArr (map (fun c : option yexp * list ystmt =>
      nd "YulCase" [("value", match fst c with Some e => jye e | None => JStr "default" end); ("body", block (snd c))]) cs))]
  | YFor pre e post l => nd "YulForLoop" [("pre", block pre); ("condition", jye e); ("post", block post); ("body", block l)]
  | YFun f ps rs l => nd "YulFunctionDefinition" ([("name", JStr f)] ++
      (match ps with [] => [] | _ => [("parameters", JArr (map (jname "YulTypedName") ps))] end) ++
      (match rs with [] => [] | _ => [("returnVariables", JArr (map (jname "YulTypedName") rs))] end) ++ [("body", block l)])
  | YWord w => nd (if w =?s "break" then "YulBreak" else if w =?s "continue" then "YulContinue" else "YulLeave") []
  end.

Definition jasm (flags : list string) (l : list ystmt) : json :=
  nd "InlineAssembly" (match flags with [] => [] | _ => [("flags", JArr (map JStr flags))] end ++ [("AST", jy (YBlock l))]).

Definition jmixed (m : mixed) : json := match m with Usual s => jc s | Asm flags l => jasm flags l end.
Definition jmixed_block (l : list mixed) : json := nd "Block" [("statements", JArr (map jmixed l))].

(** The words that are statements. *)
Fixpoint y_ok (s : ystmt) : bool :=
  match s with
  | YExp _ | YLet _ _ | YSet _ _ => true
  | YBlock l | YIf _ l | YFun _ _ _ l => forallb y_ok l
  | YSwitch _ cs => forallb (fun c => forallb y_ok (snd c)) cs
  | YFor pre _ post l => forallb y_ok pre && forallb y_ok post && forallb y_ok l
  | YWord w => (w =?s "break") || (w =?s "continue") || (w =?s "leave")
  end.

Ltac there := repeat split; try reflexivity.

Lemma jye_node : forall e, yenode e (jye e).
Proof.
  induction e as [x|s|s|bs|f args IH] using yexp_ind'; cbn [yenode jye].
  - there.
  - there. destruct ((s =?s "true") || (s =?s "false"))%bool; [right|left]; reflexivity.
  - there.
  - there. right. reflexivity.
  - split; [reflexivity|]. split; [eexists; there|]. exists (map jye args). split; [reflexivity|].
    induction IH; cbn [map]; [exact Logic.I|]. split; assumption.
Qed.

Lemma jnames : forall ty xs, names_node ty xs (map (jname ty) xs).
Proof. intros ty xs. induction xs as [|x xs IH]; constructor; [there|exact IH]. Qed.

Lemma jy_list : forall l, Forall (fun s => y_ok s = true -> ynode s (jy s)) l -> forallb y_ok l = true ->
  (fix go l ns := match l, ns with
                  | [], [] => True
                  | s :: l, n :: ns => ynode s n /\ go l ns
                  | _, _ => False
                  end) l (map jy l).
Proof.
  intros l H. induction H as [|s l P H IH]; cbn [map forallb]; [intros; exact Logic.I|]. intros O. apply andb_prop in O as (A & B).
  split; [exact (P A)|exact (IH B)].
Qed.

Ltac blk := split; [reflexivity|]; eexists; split; [reflexivity|]; apply jy_list; assumption.

Lemma jy_node : forall s, y_ok s = true -> ynode s (jy s).
Proof.
  induction s using ystmt_ind'; cbn [y_ok ynode jy]; intros O.
  - split; [reflexivity|]. exists [("nodeType", JStr "YulExpressionStatement")], "expression", (jye e), []. split; [reflexivity|].
    split; [apply jye_node|]. repeat constructor.
  - split; [reflexivity|]. split; [eexists; split; [reflexivity|apply jnames]|].
    destruct e as [e|]; [eexists; split; [reflexivity|apply jye_node]|right; reflexivity].
  - split; [reflexivity|]. split; [eexists; split; [reflexivity|apply jnames]|]. eexists; split; [reflexivity|apply jye_node].
  - blk.
  - split; [reflexivity|]. split; [eexists; split; [reflexivity|apply jye_node]|]. eexists; split; [reflexivity|]. blk.
  - split; [reflexivity|]. split; [eexists; split; [reflexivity|apply jye_node]|]. eexists; split; [reflexivity|].
    induction H as [|c cs P H IH]; cbn [map forallb] in *; [exact Logic.I|]. apply andb_prop in O as (A & B). split; [|exact (IH B)].
    split; [reflexivity|]. split; [destruct (fst c) as [x|]; [eexists; split; [reflexivity|apply jye_node]|reflexivity]|].
    eexists; split; [reflexivity|]. blk.
  - apply andb_prop in O as (O & C). apply andb_prop in O as (A & B).
    split; [reflexivity|]. split; [eexists; split; [reflexivity|]; blk|]. split; [eexists; split; [reflexivity|apply jye_node]|].
    split; (eexists; split; [reflexivity|]; blk).
  - split; [reflexivity|]. split; [reflexivity|].
    split; [destruct ps as [|p ps]; [left; split; [reflexivity|destruct rs; reflexivity]|right; eexists; split; [reflexivity|apply (jnames _ (p :: ps))]]|].
    split; [destruct rs as [|r rs]; [left; split; [reflexivity|destruct ps; reflexivity]|right; eexists; split; [destruct ps; reflexivity|apply (jnames _ (r :: rs))]]|].
    eexists; split; [destruct ps, rs; reflexivity|]. blk.
  - apply orb_prop in O as [O|O]; [apply orb_prop in O as [O|O]|]; apply String.eqb_eq in O; subst w; eexists; (split; [cbn; auto|reflexivity]).
Qed.

Lemma jasm_node : forall flags l, y_ok (YBlock l) = true -> asm_node flags l (jasm flags l).
Proof.
  intros flags l O. split; [reflexivity|]. split; [destruct flags; reflexivity|]. split; [destruct flags; reflexivity|].
  exists (jy (YBlock l)). split; [destruct flags; reflexivity|exact (jy_node (YBlock l) O)].
Qed.

(** ** A function body *)

Definition yc (f : string) (l : list yexp) : yexp := YCall f l.
Definition yv (x : string) : yexp := YName x.
Definition yn (s : string) : yexp := YLit s.

(** The sum of an array in memory, as in the manual of the language, and more. *)
Definition yul_demo : list mixed :=
  [ Usual (CVar [Some (var (ty "uint256") "" "sum")] (Some (XLit "0" None)));
    Asm ["memory-safe"]
      [ YFun "step" ["i"] ["j"] [YSet ["j"] (yc "add" [yv "i"; yn "0x20"])];
        YFun "stop" [] [] [YExp (yc "revert" [yn "0"; yn "0"])];
        YLet ["len"] (Some (yc "mload" [yv "data"]));
        YFor [YLet ["i"] (Some (yn "0")); YLet ["p"] (Some (yv "data"))] (yc "lt" [yv "i"; yv "len"]) [YSet ["i"] (yc "add" [yv "i"; yn "1"])]
          [ YSet ["p"] (yc "step" [yv "p"]);
            YIf (yc "iszero" [yc "mload" [yv "p"]]) [YWord "continue"];
            YSet ["sum"] (yc "add" [yv "sum"; yc "mload" [yv "p"]]) ];
        YSwitch (yv "sum") [(Some (yn "0"), [YExp (yc "stop" [])]); (None, [])];
        YExp (yc "sstore" [YStr "sum"; yv "sum"]) ];
    Asm [] [];
    Usual (CReturn (Some (XId "sum"))) ].

Definition yul_demo_text : string := String.concat newline
  ["{";
   "    uint256 sum = 0;";
   "    assembly (""memory-safe"") {";
   "        function step(i) -> j {";
   "            j := add(i, 0x20)";
   "        }";
   "        function stop() {";
   "            revert(0, 0)";
   "        }";
   "        let len := mload(data)";
   "        for";
   "            {";
   "                let i := 0";
   "                let p := data";
   "            }";
   "            lt(i, len)";
   "            { i := add(i, 1) }";
   "        {";
   "            p := step(p)";
   "            if iszero(mload(p)) {";
   "                continue";
   "            }";
   "            sum := add(sum, mload(p))";
   "        }";
   "        switch sum ";
   "            case 0 {";
   "                stop()";
   "            }";
   "            default {}";
   "        sstore(""sum"", sum)";
   "    }";
   "    assembly {}";
   "    return sum;";
   "}"].

Lemma yul_demo_shown : mixed_block 4 0 yul_demo = yul_demo_text.
Proof. vm_compute. reflexivity. Qed.

Lemma yul_demo_node : mixed_block_node yul_demo (jmixed_block yul_demo).
Proof.
  split; [reflexivity|]. eexists. split; [reflexivity|]. unfold yul_demo. cbn [map jmixed].
  do 4 (apply Forall2_cons; [cbn [mixed_node]; first [apply jasm_node; reflexivity|apply jc_node; reflexivity]|]). apply Forall2_nil.
Qed.

Lemma yul_demo_narrow : narrow 150 yul_demo_text.
Proof. vm_compute. repeat constructor. Qed.

Lemma yul_demo_easy : Forall (mixed_easy 5) yul_demo.
Proof.
  unfold yul_demo. repeat (progress ez || unfold easy_flags); (split; split; vm_compute; congruence).
Qed.

(** ** Assembly that is printed wrongly *)

Lemma wrong_assembly :
  misprinted ynode (ytext 4 0 false) "let x" "let x := " /\
  misprinted ynode (ytext 4 0 false) "function f() -> a, b {}" "function f() -> (a, b) {}" /\
  misprinted ynode (ytext 4 0 false) "x := hex""ff""" "x := " /\
  misprinted ynode (ytext 4 0 false) "x := ""\""""" "x := """"""".
Proof.
  repeat split.
  - wrong jy_node (YLet ["x"] None).
  - wrong jy_node (YFun "f" [] ["a"; "b"] []).
  - wrong jy_node (YSet ["x"] (YHex (String (ascii_of_nat 255) ""))).
  - wrong jy_node (YSet ["x"] (YStr """")).
Qed.
