(** Insertion of the explanatory comment (json_comment_inserter.rs,
    json_comment_helpers.rs, json_finder_helpers.rs and the commenters and
    node finders of both languages). *)
From Coq Require Import String List NArith ZArith Bool.
From Verif Require Import Base Json Traverse OpCommon SolMutators VyMutators.
Import ListNotations.
Open Scope string_scope.
Open Scope list_scope.

(** [array_node.get_node_with_id(node_id, id_maker).is_some()]. *)
Definition has_id (idm : json -> option N) (id : N) (j : json) : bool :=
  match find_id idm id j with Some _ => true | None => false end.

(** [inserted_comment_in_array] (json_comment_helpers.rs:16-32). *)
Fixpoint insert_in_array (idm : json -> option N) (id : N) (c : json) (l : list json)
  : list json * bool :=
  match l with
  | [] => ([], false)
  | x :: l =>
      if has_id idm id x then (c :: x :: l, true)
      else let (l', b) := insert_in_array idm id c l in (x :: l', b)
  end.

(** [found_node_id_in_array] (json_finder_helpers.rs:15-29). *)
Definition found_in_array (idm : json -> option N) (id : N) (l : list json) : bool :=
  existsb (has_id idm id) l.

(** [get_array_for_key_mut(key)] then [inserted_comment_in_array]. *)
Definition insert_under (idm : json -> option N) (key : string) (id : N) (c : json) (n : json)
  : json * bool :=
  match get_array n key with
  | Some l => let (l', b) := insert_in_array idm id c l in (upd_array n key (fun _ => l'), b)
  | None => (n, false)
  end.

Definition found_under (idm : json -> option N) (key : string) (id : N) (n : json) : bool :=
  match get_array n key with Some l => found_in_array idm id l | None => false end.

(** ** Solidity *)

(** [new_block_node] (solidity/commenter.rs:16-26). *)
Definition sol_block_node (l : list json) : json :=
  set_key (mkobj [ ("id", juint 9999994); ("nodeType", JStr "Block") ]) "statements" (JArr l).

(** [insert_comment_into_node_with_key] (solidity/commenter.rs:39-86).  Note
    the fixed key "body" when the block itself is the mutated node. *)
Definition sol_insert_key (n : json) (key : string) (id : N) (c : json) : json * bool :=
  match take_key n key with
  | None => (n, false)
  | Some (body, n0) =>
      match get_str body "nodeType" with
      | None => (set_key n0 key body, false)
      | Some t =>
          if t =?s "Block" then
            if match sol_id body with Some i => N.eqb id i | None => false end then
              (set_key n0 "body" (upd_array body "statements" (fun l => c :: l)), true)
            else
              let (body', b) := insert_under sol_id "statements" id c body in
              (set_key n0 key body', b)
          else if has_id sol_id id body then
            (set_key n0 key (sol_block_node [c; body]), true)
          else (set_key n0 key body, false)
      end
  end.

(** [found_node_id_in_node_with_key] (solidity/node_finder.rs:22-52). *)
Definition sol_found_key (n : json) (key : string) (id : N) : bool :=
  match oget n key with
  | None => false
  | Some body =>
      match get_str body "nodeType" with
      | None => false
      | Some t =>
          if t =?s "Block" then
            match sol_id body with Some i => N.eqb id i | None => false end
            || found_under sol_id "statements" id body
          else has_id sol_id id body
      end
  end%bool.

(** Which key holds the statements of a node of the given type: the two
    factories (solidity/commenter.rs:249-273, node_finder.rs:204-228). *)
Inductive holder : Type :=
| HArray (key : string)     (* an array of statements *)
| HBody (key : string)      (* a block or a single statement *)
| HIf                       (* trueBody, then falseBody *)
| HNone.

Definition sol_holder (n : json) : holder :=
  match get_str n "nodeType" with
  | None => HNone
  | Some t =>
      if smem t ["Block"; "UncheckedBlock"] then HArray "statements"
      else if t =?s "ContractDefinition" then HArray "nodes"
      else if smem t ["DoWhileStatement"; "ForStatement"; "FunctionDefinition";
                      "ModifierDefinition"; "WhileStatement"] then HBody "body"
      else if t =?s "IfStatement" then HIf
      else if t =?s "TryCatchClause" then HBody "block"
      else HNone
  end.

(** [insert_comment] of the commenter chosen for the node. *)
Definition sol_insert (n : json) (id : N) (c : json) : json :=
  match sol_holder n with
  | HArray k => fst (insert_under sol_id k id c n)
  | HBody k => fst (sol_insert_key n k id c)
  | HIf =>
      let (n1, b) := sol_insert_key n "trueBody" id c in
      if b then n1 else fst (sol_insert_key n1 "falseBody" id c)
  | HNone => n
  end.

(** [node_is_a_direct_member] of the finder chosen for the node. *)
Definition sol_member (n : json) (id : N) : bool :=
  match sol_holder n with
  | HArray k => found_under sol_id k id n
  | HBody k => sol_found_key n k id
  | HIf => sol_found_key n "trueBody" id || sol_found_key n "falseBody" id
  | HNone => false
  end%bool.

(** ** Vyper (vyper/commenter.rs, vyper/node_finder.rs) *)
Definition vy_insert (n : json) (id : N) (c : json) : json :=
  if is_ast_in ["For"; "FunctionDef"; "Module"] n then fst (insert_under vy_id "body" id c n)
  else if is_ast "If" n then
    let (n1, b) := insert_under vy_id "body" id c n in
    if b then n1 else fst (insert_under vy_id "orelse" id c n1)
  else n.

Definition vy_member (n : json) (id : N) : bool :=
  if is_ast_in ["For"; "FunctionDef"; "Module"] n then found_under vy_id "body" id n
  else if is_ast "If" n then found_under vy_id "body" id n || found_under vy_id "orelse" id n
  else false.

(** ** [insert_comment_by_path] (json_comment_inserter.rs:52-86) *)
Fixpoint insert_first (idm : json -> option N) (member : json -> N -> bool)
  (insert : json -> N -> json -> json) (ast c : json) (id : N) (ups : list N) : json :=
  match ups with
  | [] => ast
  | up :: ups =>
      match find_id idm up ast with
      | Some node =>
          if member node id then
            match upd_id idm up (fun n => insert n id c) ast with
            | Some ast' => ast'
            | None => ast
            end
          else insert_first idm member insert ast c id ups
      | None => insert_first idm member insert ast c id ups
      end
  end.

Definition insert_comment_by_path (idm : json -> option N) (member : json -> N -> bool)
  (insert : json -> N -> json -> json) (ast c : json) (node_path : list N) : json :=
  match rev node_path with
  | [] => ast
  | id :: ups => insert_first idm member insert ast c id ups
  end.
