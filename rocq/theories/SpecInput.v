(** What the input files are and what the command line asks for.  Independent of
    the recognizer and of the code that assembles the parameters. *)
From Coq Require Import String Ascii List NArith ZArith Bool.
From Verif Require Import Base Json MutationType Paths Prefs Config Compiler Cli SpecTree SpecOps.
Import ListNotations.
Open Scope string_scope.
Open Scope list_scope.

(** A tree as the compiler of the language writes it. *)
Definition tree_of (l : language) (j : json) : Prop :=
  match l with
  | LSolidity => has_field j "nodeType" (JStr "SourceUnit")
  | LVyper => exists name ast, has_field j "contract_name" name /\ has_field j "ast" ast
  end.

(** The name ends in [.mgnx] and is not just that. *)
Definition named_config (f : string) : Prop :=
  exists stem, stem <> "" /\ file_name f = Some (String.append stem ".mgnx").

Definition language_named (s : string) (l : language) : Prop :=
  (s = "Solidity" /\ l = LSolidity) \/ (s = "Vyper" /\ l = LVyper).

(** A compiler of the language accepts the file and leaves its tree in [out]. *)
Inductive translated (m : machine) (p : prefs) (f : string) : language -> string -> Prop :=
| By_solc base : file_name f = Some base ->
    m_exec m (solc p) (sol_flags p ++ ["--ast-compact-json"; "--overwrite"; "-o"; m_tmp m; f]) = Some true ->
    translated m p f LSolidity (String.concat "/" [m_tmp m; String.append base "_json.ast"])
| By_vyper base : file_name f = Some base -> m_dash_o m (vyperc p) = Some true ->
    m_exec m (vyperc p) (vy_flags p ++ ["-f"; "ast"; "-o"; path_join (m_tmp m) (String.append base ".json"); f]) = Some true ->
    translated m p f LVyper (path_join (m_tmp m) (String.append base ".json"))
| By_old_vyper base : file_name f = Some base -> m_dash_o m (vyperc p) = Some false ->
    m_exec m (vyperc p) (vy_flags p ++ ["-f"; "ast"; f]) = Some true ->
    m_create m (path_join (m_tmp m) (String.append base ".json")) = true ->
    translated m p f LVyper (path_join (m_tmp m) (String.append base ".json"))
| By_docker base : file_name f = Some base ->
    m_exec m "docker" (["run"; "-v"; String.append (path_parent f) ":/code"; "vyperlang/vyper"; "-f"; "ast"] ++ vy_flags p ++
      [f; "-o"; String.concat "/" [m_tmp m; String.append base ".json"]]) = Some true ->
    translated m p f LVyper (String.concat "/" [m_tmp m; String.append base ".json"]).

(** What a file is. *)
Definition file_is (m : machine) (p : prefs) (f : string) (x : language * file_type) : Prop :=
  match snd x with
  | FConfig => named_config f /\ exists j s, m_json m f = Some j /\ has_field j "language" (JStr s) /\ language_named s (fst x)
  | FSource => exists out, translated m p f (fst x) out
  | FAst => exists j, m_json m f = Some j /\ tree_of (fst x) j
  end.

(** A file can be several of these; the first counts. *)
Definition precedence : list (language * file_type) :=
  [ (LSolidity, FConfig); (LVyper, FConfig); (LSolidity, FSource); (LVyper, FSource); (LSolidity, FAst); (LVyper, FAst) ].

Definition first_of (m : machine) (p : prefs) (f : string) (x : language * file_type) : Prop :=
  exists before after, precedence = before ++ x :: after /\ file_is m p f x /\ forall y, In y before -> ~ file_is m p f y.

(** The names of the operators on the command line. *)
Definition operator_names : list (string * mutation_type) :=
  [ ("ArithmeticBinaryOp", Generic ArithmeticBinaryOp); ("LogicalBinaryOp", Generic LogicalBinaryOp);
    ("BitwiseBinaryOp", Generic BitwiseBinaryOp); ("BitshiftBinaryOp", Generic BitshiftBinaryOp);
    ("ComparisonBinaryOp", Generic ComparisonBinaryOp); ("Assignment", Generic Assignment);
    ("DeleteStatement", Generic DeleteStatement); ("FunctionCall", Generic FunctionCall);
    ("IfStatement", Generic IfStatement); ("Integer", Generic Integer);
    ("SwapFunctionArguments", Generic SwapFunctionArguments); ("SwapOperatorArguments", Generic SwapOperatorArguments);
    ("SwapLines", Generic SwapLines); ("UnaryOp", Generic UnaryOp);
    ("Require", Solidity Require); ("UncheckedBlock", Solidity UncheckedBlock); ("ElimDelegateCall", Solidity ElimDelegateCall) ].
