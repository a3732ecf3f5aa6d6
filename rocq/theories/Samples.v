(** Concrete programs used by the examples that accompany the properties. *)
From Coq Require Import String List NArith ZArith Bool.
From Verif Require Import Base Json Rng Permissions MutationType Traverse OpCommon
  SolMutators VyMutators Comments Language.
Import ListNotations.
Open Scope list_scope.
Open Scope string_scope.

(** An environment: identity "hash", constant printer, insertion order. *)
Definition ex_env : env := {|
  e_sha := fun s => s; e_pp := fun _ => Ok "code"; e_order := fun l => l; e_oc := true;
  e_rand_float := fun d => (Z.of_N d, 0%Z); e_show_float := fun f => show_Z (fst f);
  e_float_bytes := fun f => le_bytes_Z 8 (fst f)
|}.

(** Random streams. *)
Definition ex_rng : rng := {| rstream := N.of_nat; rpos := 0 |}.
Definition rng_from (k : nat) : rng := {| rstream := N.of_nat; rpos := k |}.
Definition const_rng (d : N) : rng := {| rstream := fun _ => d; rpos := 0 |}.

(** Solidity nodes. *)
Definition s_node (t : string) (id : N) (fields : list (string * json)) : json :=
  mkobj (("nodeType", JStr t) :: ("id", juint id) :: fields).
Definition s_ident (id : N) (x : string) : json := s_node "Identifier" id [("name", JStr x)].
Definition s_typed (t : string) (id : N) (x : string) : json :=
  s_node "Identifier" id [("name", JStr x);
     ("typeDescriptions", mkobj [("typeString", JStr t)])].
Definition s_binop (id : N) (op : string) (a b : json) : json :=
  s_node "BinaryOperation" id [("operator", JStr op); ("leftExpression", a); ("rightExpression", b)].
Definition s_number (id : N) (v : string) : json :=
  s_node "Literal" id [("kind", JStr "number"); ("value", JStr v)].
Definition s_assign (id : N) (ty : string) (a b : json) : json :=
  s_node "Assignment" id [("operator", JStr "="); ("leftHandSide", a); ("rightHandSide", b);
     ("typeDescriptions", mkobj [("typeString", JStr ty)])].
Definition s_stmt (id : N) (e : json) : json := s_node "ExpressionStatement" id [("expression", e)].
Definition s_return (id : N) (e : json) : json := s_node "Return" id [("expression", e)].
Definition s_block (id : N) (l : list json) : json := s_node "Block" id [("statements", JArr l)].
Definition s_if (id : N) (c a : json) (b : json) : json :=
  s_node "IfStatement" id [("condition", c); ("trueBody", a); ("falseBody", b)].
Definition s_call (id : N) (f : json) (l : list json) : json :=
  s_node "FunctionCall" id [("expression", f); ("arguments", JArr l)].
Definition s_fun (id : N) (f : string) (body : json) : json :=
  s_node "FunctionDefinition" id [("name", JStr f); ("body", body)].
Definition s_contract (id : N) (c : string) (l : list json) : json :=
  s_node "ContractDefinition" id [("name", JStr c); ("nodes", JArr l)].
Definition s_unit (id : N) (l : list json) : json := s_node "SourceUnit" id [("nodes", JArr l)].

(** contract C { function f() { x = a + b; return a - b; }
                 function g() { y = a * b; } } *)
Definition sum_ab := s_binop 13 "+" (s_ident 14 "a") (s_ident 15 "b").
Definition dif_ab := s_binop 17 "-" (s_ident 18 "a") (s_ident 19 "b").
Definition mul_ab := s_binop 26 "*" (s_ident 27 "a") (s_ident 28 "b").
Definition fun_f := s_fun 10 "f" (s_block 11
   [ s_stmt 12 (s_assign 120 "uint8" (s_ident 121 "x") sum_ab); s_return 16 dif_ab ]).
Definition fun_g := s_fun 20 "g" (s_block 21
   [ s_stmt 22 (s_assign 23 "uint8" (s_ident 24 "y") mul_ab) ]).
Definition ex_unit : json := s_unit 1 [ s_contract 2 "C" [ fun_f; fun_g ] ].

(** function f() { f(); x = a + b; }: the inner identifier carries the name
    of the function. *)
Definition ex_recursive : json := s_unit 1 [ s_contract 2 "C"
   [ s_fun 10 "f" (s_block 11
       [ s_stmt 12 (s_call 30 (s_ident 31 "f") []);
         s_stmt 32 (s_assign 33 "uint8" (s_ident 34 "x") sum_ab) ]) ] ].

(** Vyper nodes. *)
Definition v_node (t : string) (id : N) (fields : list (string * json)) : json :=
  mkobj (("ast_type", JStr t) :: ("node_id", juint id) :: fields).
Definition v_name (id : N) (x : string) : json := v_node "Name" id [("id", JStr x)].
Definition v_op (id : N) (op : string) : json := v_node op id [].
Definition v_binop (id : N) (op : string) (a b : json) : json :=
  v_node "BinOp" id [("op", v_op (id + 1) op); ("left", a); ("right", b)].
Definition v_int (id : N) (z : Z) : json := v_node "Int" id [("value", jint z)].
Definition v_assign (id : N) (a b : json) : json := v_node "Assign" id [("target", a); ("value", b)].
Definition v_return (id : N) (e : json) : json := v_node "Return" id [("value", e)].
Definition v_if (id : N) (c : json) (a b : list json) : json :=
  v_node "If" id [("test", c); ("body", JArr a); ("orelse", JArr b)].
Definition v_call (id : N) (f : json) (l : list json) : json :=
  v_node "Call" id [("func", f); ("args", JArr l); ("keywords", JArr [])].
Definition v_def (id : N) (f : string) (l : list json) : json :=
  v_node "FunctionDef" id [("name", JStr f); ("body", JArr l)].
Definition v_module (l : list json) : json := v_node "Module" 0 [("body", JArr l)].

(** def f(): x = a + b;  return a - b *)
Definition ex_module : json := v_module
  [ v_def 10 "f" [ v_assign 11 (v_name 12 "x") (v_binop 13 "Add" (v_name 15 "a") (v_name 16 "b"));
                   v_return 17 (v_binop 18 "Sub" (v_name 20 "a") (v_name 21 "b")) ] ].
