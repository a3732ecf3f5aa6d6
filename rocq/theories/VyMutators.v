(** The Vyper operators (mutagenyx_lib/src/vyper/mutators.rs). *)
From Coq Require Import String Ascii List NArith ZArith Bool.
From Verif Require Import Base Json Rng MutationType Traverse OpCommon.
Import ListNotations.
Open Scope list_scope.
Open Scope string_scope.

(** Vyper id maker (vyper/language_interface.rs: key "node_id"). *)
Definition vy_id : json -> option N := get_ids "node_id".

(** [node.get_str_for_key("ast_type") == t]. *)
Definition is_ast (t : string) (n : json) : bool :=
  match get_str n "ast_type" with Some s => s =?s t | None => false end.

Definition is_ast_in (ts : list string) (n : json) : bool :=
  match get_str n "ast_type" with Some s => smem s ts | None => false end.

Definition varr_of (n : json) (k : string) : option (list json) :=
  match oget n k with Some v => as_array v | None => None end.

(** [get_python_operator_map] (vyper/operators.rs:3-29). *)
Definition python_operators : list (string * string) :=
  [ ("Add", "+"); ("Sub", "-"); ("Mult", "*"); ("Div", "/"); ("Mod", "%"); ("Pow", "**");
    ("And", "&&"); ("Or", "||"); ("BitAnd", "&"); ("BitOr", "|"); ("BitXor", "^");
    ("Eq", "=="); ("NotEq", "!="); ("Gt", ">"); ("GtE", ">="); ("Lt", "<"); ("LtE", "<=");
    ("Not", "!"); ("Invert", "~"); ("In", "in"); ("NotIn", "not in") ].

(** [reverse_operator_map] (287-291). *)
Definition reverse_operators : list (string * string) :=
  map (fun kv => (snd kv, fst kv)) python_operators.

(** ** Node builders (31-253) *)

(** A JSON integer literal as serde_json parses it: [u64], [i64], or else the
    nearest [f64] (serde_json without [float_roundtrip] may be off by one unit
    in the last place; we take the nearest). *)
Definition parse_int_literal (z : Z) : json :=
  if (0 <=? z)%Z then
    if (z <? 18446744073709551616)%Z then JNum (NumU (Z.to_N z))
    else let (m, e) := round_f64 z in JNum (NumF m e)
  else
    if (-9223372036854775808 <=? z)%Z then JNum (NumI z)
    else let (m, e) := round_f64 z in JNum (NumF m e).

(** [new_integer_constant_node] (31-42). *)
Definition vy_int_node (z : Z) : json :=
  mkobj [ ("node_id", juint 9999999); ("ast_type", JStr "Int"); ("value", parse_int_literal z) ].

(** [new_float_constant_node] (49-58). *)
Definition vy_float_node (text : string) : json :=
  mkobj [ ("node_id", juint 9999998); ("ast_type", JStr "Decimal"); ("value", JStr text) ].

(** [new_boolean_constant_node] (65-74). *)
Definition vy_bool_node (b : bool) : json :=
  mkobj [ ("node_id", juint 9999997); ("ast_type", JStr "NameConstant"); ("value", JBool b) ].

(** [new_comment_node] (86-98). *)
Definition vy_comment (text : string) : json :=
  set_key (mkobj [ ("node_id", juint 9999996); ("ast_type", JStr "Comment"); ("value", JNull) ])
          "value" (JStr text).

(** [new_comment_node_from_node] (105-123). *)
Definition vy_comment_node (node : json) : json :=
  let id := match get_int node "node_id" with Some z => z | None => 9999996%Z end in
  set_key
    (set_key (mkobj [ ("node_id", juint 9999996); ("ast_type", JStr "Comment"); ("value", JNull) ])
             "value" node)
    "node_id" (jint id).

(** [new_pass_node] (126-132). *)
Definition vy_pass_node : json := mkobj [ ("node_id", juint 9999995); ("ast_type", JStr "Pass") ].

(** [new_string_node] (139-148); only ever applied to the fixed text below. *)
Definition vy_str_node (text : string) : json :=
  mkobj [ ("node_id", juint 9999994); ("ast_type", JStr "Str"); ("value", JStr text) ].

(** [new_return_node] (155-165). *)
Definition vy_return_node (v : json) : json :=
  set_key (mkobj [ ("node_id", juint 9999993); ("ast_type", JStr "Return"); ("value", JNull) ])
          "value" v.

(** [new_unary_op_node] (173-189). *)
Definition vy_unary_node (op : string) (operand : json) : json :=
  set_key (mkobj [ ("node_id", juint 9999992); ("operand", JNull);
                   ("op", mkobj [ ("node_id", juint 9999991); ("ast_type", JStr op) ]);
                   ("ast_type", JStr "UnaryOp") ]) "operand" operand.

(** [new_list_like_thing_node] (228-253); [kind] is "Tuple" or "List". *)
Definition vy_list_node (size : nat) (kind : string) : json :=
  set_key (mkobj [ ("node_id", juint 9999991); ("ast_type", JStr kind); ("elements", JArr []) ])
    "elements"
    (JArr (repeat (mkobj [ ("node_id", juint 9999992); ("ast_type", JStr "NameConstant");
                           ("value", JNull) ]) size)).

(** ** [BinaryOpMutator] (261-419) *)
Definition op_type (n : json) : option string :=
  match oget n "op" with Some o => get_str o "ast_type" | None => None end.

Definition vy_binop_mutable (ops : list string) (n : json) : res bool :=
  Ok (if is_ast_in ["BinOp"; "BoolOp"; "Compare"] n then
        match op_type n with
        | Some t => match assoc t python_operators with Some s => smem s ops | None => false end
        | None => false
        end
      else false).

Definition vy_binop_mutate (e : env) (t : mutation_type) (ops : list string)
  (fuel : nat) (n : json) (r : rng) : res mutated :=
  let malformed := Err ("MalformedNode: " ++ match get_str n "ast_type" with
                                            | Some s => s | None => "BinOp" end ++ " op") in
  match take_key n "op" with
  | Some (op, n0) =>
      match get_str op "ast_type" with
      | Some ot =>
          let? old_s := e_pp e n in
          match assoc ot python_operators with
          | None => Panic "called `Option::unwrap()` on a `None` value"
          | Some orig =>
              let? (c, r') := pick_until fuel
                   (choose_or "RandomOperationFailure: failed to choose operator" ops)
                   (fun c => orig =?s c) r in
              match assoc c reverse_operators with
              | None => Panic "called `Option::unwrap()` on a `None` value"
              | Some vop =>
                  let n' := set_key n0 "op" (set_str op "ast_type" vop) in
                  let? new_s := e_pp e n' in
                  Ok (done t n' (vy_id n') (Some (hash e c))
                        (vy_comment (show_mt t ++ " Mutator: Changed '" ++ old_s ++ "' to '" ++ new_s ++ "'"))
                        r')
              end
          end
      | None => malformed
      end
  | None => malformed
  end.

Definition vy_binop (e : env) (t : mutation_type) (ops : list string) : mutator :=
  {| mu_type := t; mu_mutable := vy_binop_mutable ops; mu_mutate := vy_binop_mutate e t ops |}.

(** ** [AssignmentMutator] (427-590) *)
Definition vy_assign_mutable (n : json) : res bool := Ok (is_ast "Assign" n).

Definition vy_assign_value (e : env) (r : rng) : res (json * string * rng) :=
  let? (k, r1) := next_mod 4 r in
  match k with
  | 0%N =>
      let? (v, r2) := gen_range (-170141183460469231731687303715884105728)
                                170141183460469231731687303715884105727 r1 in
      Ok (vy_int_node v, byte_str 0 ++ le_bytes_Z 16 v, r2)
  | 1%N =>
      let? (v, r2) := gen_range 0 340282366920938463463374607431768211455 r1 in
      Ok (vy_int_node v, byte_str 1 ++ le_bytes_Z 16 v, r2)
  | 2%N =>
      let? (b, r2) := next_mod 2 r1 in
      Ok (vy_bool_node (N.eqb b 1), byte_str 2 ++ le_bytes 8 b, r2)
  | _ =>
      let (d, r2) := draw r1 in
      let f := e_rand_float e d in
      Ok (vy_float_node (e_show_float e f), byte_str 3 ++ e_float_bytes e f, r2)
  end.

Definition vy_assign_mutate (e : env) (fuel : nat) (n : json) (r : rng) : res mutated :=
  match oget n "value" with
  | None => Err "MalformedNode: Assign value"
  | Some v =>
      let? old_s := e_pp e v in
      let? (v', bytes, r') := vy_assign_value e r in
      let n' := set_key n "value" v' in
      match oget n' "value" with
      | None => Panic "called `Option::unwrap()` on a `None` value"
      | Some x =>
          let? new_s := e_pp e x in
          Ok (done (Generic Assignment) n' (vy_id n') (Some (hash e bytes))
                (vy_comment ("Assignment Mutator: changed '" ++ old_s ++ "' to '" ++ new_s ++ "'")) r')
      end
  end.

Definition vy_assign (e : env) : mutator :=
  {| mu_type := Generic Assignment; mu_mutable := vy_assign_mutable; mu_mutate := vy_assign_mutate e |}.

(** ** [DeleteStatementMutator] (631-947) *)
Definition vy_delete_mutable (e : env) (n : json) : res bool :=
  if is_ast_in ["FunctionDef"; "For"; "If"; "Module"] n then
    match varr_of n "body" with
    | Some [] => Ok false
    | Some [x] =>
        let? s := e_pp e x in
        Ok (negb (smem s ["view"; "nonpayable"; "payable"]))
    | Some _ => Ok true
    | None => Ok false
    end
  else Ok false.

Definition lorem : string :=
  "Lorem ipsum dolor sit amet, consectetur adipiscing elit, sed do eiusmod tempor incididunt ut labore et dolore magna aliqua.".

(** What is pushed after the commented-out only statement of a body (720-915):
    the statements, the hashed bytes, the generator. *)
Definition vy_delete_filler (n : json) (r : rng) : res (list json * string * rng) :=
  match oget n "returns" with
  | None => Ok ([vy_pass_node], "", r)
  | Some ret =>
      match get_str ret "ast_type" with
      | None => Ok ([vy_pass_node], "", r)
      | Some t =>
          if t =?s "Name" then
            match get_str ret "id" with
            | None => Ok ([], "", r)
            | Some id =>
                let? pre := slice_to 3 id in
                if pre =?s "boo" then
                  let? (b, r') := next_mod 2 r in
                  Ok ([vy_return_node (vy_bool_node (N.eqb b 1))], le_bytes 8 b, r')
                else if pre =?s "uin" then
                  let? (v, r') := next_mod 10 r in
                  Ok ([vy_return_node (vy_int_node (Z.of_N v))], le_bytes 8 v, r')
                else if pre =?s "int" then
                  let (d, r') := next_u64 r in
                  let v := N.land d 20 in
                  Ok ([vy_return_node (vy_int_node (Z.of_N v - 10))], le_bytes 8 v, r')
                else if pre =?s "str" then
                  Ok ([vy_return_node (vy_str_node lorem)], lorem, r)
                else Err ("UnrecognizedLanguageType: " ++ pre)
            end
          else if t =?s "Pass" then Ok ([], "", r)
          else if (t =?s "Tuple") || (t =?s "List") then
            match varr_of ret "elements" with
            | Some l => Ok ([vy_return_node (vy_list_node (length l) t)], "", r)
            | None => Ok ([], "", r)
            end
          else Ok ([], "", r)
      end
  end%bool.

Definition vy_delete_mutate (e : env) (fuel : nat) (n : json) (r : rng) : res mutated :=
  match take_key n "body" with
  | Some (JArr l, n0) =>
      let? (i, r1) := random_index (length l) r in
      let? value := vec_get l i in
      let l1 := vec_put i (vy_comment_node value) l in
      let? (l2, bytes, r2) :=
        if Nat.eqb (length l1) 1 then
          let? (more, bytes, r2) := vy_delete_filler n0 r1 in
          Ok (List.app l1 more, bytes, r2)
        else Ok (l1, "", r1) in
      let n' := set_key n0 "body" (JArr l2) in
      Ok (done (Generic DeleteStatement) n' (vy_id value) (Some (hash e (usize_bytes i ++ bytes)))
            (vy_comment "DeleteStatement Mutator: commented out the following line.") r2)
  | _ => Err ("MalformedNode: " ++ match get_str n "ast_type" with
                                   | Some s => s | None => "FunctionDef" end ++ " body")
  end.

Definition vy_delete (e : env) : mutator :=
  {| mu_type := Generic DeleteStatement; mu_mutable := vy_delete_mutable e;
     mu_mutate := vy_delete_mutate e |}.

(** ** [FunctionCallMutator] (949-1047)

    The operator tests the key "nodeType", which Vyper nodes do not have. *)
Definition vy_call_mutable (n : json) : res bool :=
  Ok (if is_ast "Call" n then
        match varr_of n "args" with Some (_ :: _) => true | _ => false end
      else false).

Definition vy_call_bad (l : list json) (i : nat) : bool :=
  match nth_error l i with
  | Some v => match get_str v "nodeType" with
              | Some t => ((t =?s "Int") || (t =?s "Str"))%bool
              | None => false
              end
  | None => false
  end.

Definition vy_call_mutate (e : env) (fuel : nat) (n : json) (r : rng) : res mutated :=
  match varr_of n "args" with
  | Some l =>
      let? (i, r') := pick_until fuel (random_index (length l)) (vy_call_bad l) r in
      let? n' := vec_get l i in
      let? old_s := e_pp e n in
      let? new_s := e_pp e n' in
      Ok (done (Generic FunctionCall) n' (if is_object n' then vy_id n' else None)
            (Some (hash e (usize_bytes i)))
            (vy_comment ("FunctionCall Mutator: replaced '" ++ old_s ++ "' with '" ++ new_s ++ "'")) r')
  | None => Err "MalformedNode: Call args"
  end.

Definition vy_call (e : env) : mutator :=
  {| mu_type := Generic FunctionCall; mu_mutable := vy_call_mutable; mu_mutate := vy_call_mutate e |}.

(** ** [SwapFunctionArgumentsMutator] (1056-1193) *)
Definition vy_swapargs_mutable (n : json) : res bool :=
  Ok (if is_ast "Call" n then
        match varr_of n "args" with Some l => Nat.leb 2 (length l) | None => false end
      else false).

Definition vy_swapargs_mutate (e : env) (fuel : nat) (n : json) (r : rng) : res mutated :=
  let t := Generic SwapFunctionArguments in
  let finish n' l i j bytes r' :=
      let? a1 := vec_get l i in
      let? a2 := vec_get l j in
      let? s1 := e_pp e a1 in
      let? s2 := e_pp e a2 in
      let n'' := set_key n' "args" (JArr (replace_at j a1 (replace_at i a2 l))) in
      Ok (done t n'' (vy_id n'') (Some (hash e bytes))
            (vy_comment ("SwapFunctionArguments Mutator: swapped '" ++ s1 ++ "', for '" ++ s2 ++ "'")) r') in
  match take_key n "args" with
  | Some (JArr l, n0) =>
      match length l with
      | 0 | 1 =>
          Ok {| md_node := n0;
                md_result := {| mr_type := Some t; mr_index := None; mr_node := vy_id n0;
                                mr_hash := Some (hash e "") |};
                md_comment := None; md_rng := r |}
      | 2 => finish n0 l 0 1 (byte_str 2) r
      | _ =>
          let? (i, r1) := random_index (length l) r in
          let? (j, r2) := pick_until fuel (random_index (length l)) (Nat.eqb i) r1 in
          finish n0 l i j (usize_bytes i ++ usize_bytes j) r2
      end
  | _ => Err "MalformedNode: Call args"
  end.

Definition vy_swapargs (e : env) : mutator :=
  {| mu_type := Generic SwapFunctionArguments; mu_mutable := vy_swapargs_mutable;
     mu_mutate := vy_swapargs_mutate e |}.

(** ** [IfStatementMutator] (1201-1336) *)
Definition vy_if_mutable (n : json) : res bool :=
  Ok (if is_ast "If" n then match oget n "test" with Some _ => true | None => false end else false).

Definition vy_if_mutate (e : env) (fuel : nat) (n : json) (r : rng) : res mutated :=
  match oget n "test" with
  | None => Err "MalformedNode: If test"
  | Some c =>
      let? old_s := e_pp e c in
      let? (k, r') := next_mod 3 r in
      let finish base new :=
        let? new_s := e_pp e new in
        let n' := set_key base "test" new in
        Ok (done (Generic IfStatement) n' (vy_id n') (Some (hash e (le_bytes 8 k)))
              (vy_comment ("IfStatement Mutator: changed test condition '" ++ old_s ++ "' to '"
                           ++ new_s ++ "'")) r') in
      match k with
      | 0%N => finish n (vy_bool_node true)
      | 1%N => finish n (vy_bool_node false)
      | _ =>
          match take_key n "test" with
          | Some (c, n0) => finish n0 (vy_unary_node "Not" c)
          | None =>
              Ok {| md_node := n;
                    md_result := {| mr_type := Some (Generic IfStatement); mr_index := None;
                                    mr_node := vy_id n; mr_hash := Some (hash e (le_bytes 8 k)) |};
                    md_comment := None; md_rng := r' |}
          end
      end
  end.

Definition vy_if (e : env) : mutator :=
  {| mu_type := Generic IfStatement; mu_mutable := vy_if_mutable; mu_mutate := vy_if_mutate e |}.

(** ** [IntegerMutator] (1344-1442) *)
Definition vy_int_mutable (n : json) : res bool := Ok (is_ast "Int" n).

(** [u64 as i64]. *)
Definition u64_as_i64 (n : N) : Z :=
  if (n <? 9223372036854775808)%N then Z.of_N n else (Z.of_N n - 18446744073709551616)%Z.

Definition vy_int_mutate (e : env) (fuel : nat) (n : json) (r : rng) : res mutated :=
  let? old_s := e_pp e n in
  let? (k, r1) := next_mod 3 r in
  let? (n', r2) :=
    match k with
    | 2%N => let (d, r2) := next_u64 r1 in Ok (set_key n "value" (jint (u64_as_i64 d)), r2)
    | _ =>
        match oget n "value" with
        | Some v =>
            match as_i64 v with
            | Some z => let? z' := i64_add (e_oc e) z (if N.eqb k 0 then 1 else -1)%Z in
                        Ok (set_key n "value" (jint z'), r1)
            | None => Ok (n, r1)
            end
        | None => Ok (n, r1)
        end
    end in
  let? new_s := e_pp e n' in
  Ok (done (Generic Integer) n' (vy_id n') (Some (hash e (le_bytes 8 k)))
        (vy_comment ("Integer Mutator: changed '" ++ old_s ++ "' to '" ++ new_s ++ "'")) r2).

Definition vy_int (e : env) : mutator :=
  {| mu_type := Generic Integer; mu_mutable := vy_int_mutable; mu_mutate := vy_int_mutate e |}.

(** ** [SwapOperatorArgumentsMutator] (1449-1558) *)
Definition vy_swapop_mutable (n : json) : res bool :=
  if is_ast_in ["BinOp"; "BoolOp"; "Compare"] n then
    match op_type n with
    | Some t =>
        match assoc t python_operators with
        | Some s => Ok (smem s non_commutative_operators)
        | None => Panic "HashMap index: key not found"
        end
    | None => Ok false
    end
  else Ok false.

(** The edit and the two texts (1499-1526).  The "BoolOp" branch drops the
    edited array. *)
Definition vy_swapop_edit (e : env) (t : string) (n : json) : res (json * string * string) :=
  if smem t ["BinOp"; "Compare"] then
    match take_key n "left" with
    | Some (a, n0) =>
        match take_key n0 "right" with
        | Some (b, n1) =>
            let? sa := e_pp e a in
            let? sb := e_pp e b in
            Ok (set_key (set_key n1 "left" b) "right" a, sa, sb)
        | None => Ok (n0, "", "")
        end
    | None => Ok (n, "", "")
    end
  else if t =?s "BoolOp" then
    match take_key n "values" with
    | Some (JArr l, n0) =>
        let? b := vec_get l 1 in
        let? a := vec_get l 0 in
        let? sa := e_pp e a in
        let? sb := e_pp e b in
        Ok (n0, sa, sb)
    | Some (_, n0) => Ok (n0, "", "")
    | None => Ok (n, "", "")
    end
  else Ok (n, "", "").

Definition vy_swapop_mutate (e : env) (fuel : nat) (n : json) (r : rng) : res mutated :=
  match get_str n "ast_type" with
  | Some t =>
      let? (n', sa, sb) := vy_swapop_edit e t n in
      Ok (done (Generic SwapOperatorArguments) n' (vy_id n') (Some (hash e t))
            (vy_comment ("SwapOperatorArguments Mutator: Swapped '" ++ sa ++ "' for '" ++ sb ++ "'")) r)
  | None => Err "MalformedNode: Unknown ast_type"
  end.

Definition vy_swapop (e : env) : mutator :=
  {| mu_type := Generic SwapOperatorArguments; mu_mutable := vy_swapop_mutable;
     mu_mutate := vy_swapop_mutate e |}.

(** ** [SwapLinesMutator] (1565-1724) *)
Definition vy_swaplines_mutable (n : json) : res bool :=
  Ok (if is_ast_in ["FunctionDef"; "For"; "If"] n then
        match varr_of n "body" with
        | Some l =>
            (Nat.leb 2 (length l) &&
             (negb (existsb (is_ast "Return") l) || Nat.leb 3 (length l)))%bool
        | None => false
        end
      else false).

Definition ast_at (t : string) (l : list json) (i : nat) : bool :=
  match nth_error l i with Some v => is_ast t v | None => false end.

Definition vy_swaplines_mutate (e : env) (fuel : nat) (n : json) (r : rng) : res mutated :=
  match take_key n "body" with
  | Some (JArr l, n0) =>
      let? (i, r1) := pick_until fuel (random_index (length l)) (ast_at "Return" l) r in
      let? (j, r2) := pick_until fuel (random_index (length l))
                        (fun j => if Nat.eqb j i then true else ast_at "Return" l j) r1 in
      let? (l', x, y) := vec_swap i j l in
      let n' := set_key n0 "body" (JArr l') in
      let? sx := e_pp e x in
      let? sy := e_pp e y in
      Ok (done (Generic SwapLines) n' (vy_id n') (Some (hash e (usize_bytes i ++ usize_bytes j)))
            (vy_comment ("SwapLines Mutator: Swapped line '" ++ sx ++ "' with '" ++ sy ++ "'")) r2)
  | _ => Err ("MalformedNode: " ++ match get_str n "ast_type" with
                                   | Some s => s | None => "FunctionDef" end ++ " body")
  end.

Definition vy_swaplines (e : env) : mutator :=
  {| mu_type := Generic SwapLines; mu_mutable := vy_swaplines_mutable;
     mu_mutate := vy_swaplines_mutate e |}.

(** ** [UnaryOpMutator] (1735-1810) *)
Definition vy_unary_mutable (n : json) : res bool := Ok (is_ast "UnaryOp" n).

Definition vy_unary_mutate (e : env) (fuel : nat) (n : json) (r : rng) : res mutated :=
  let? old_s := e_pp e n in
  match take_key n "operand" with
  | Some (x, _) =>
      let? new_s := e_pp e x in
      Ok (done (Generic UnaryOp) x (vy_id x) (Some (hash e new_s))
            (vy_comment ("UnaryOp Mutator: Replaced '" ++ old_s ++ "' with '" ++ new_s)) r)
  | None => Err "MalformedNode: UnaryOp operand"
  end.

Definition vy_unary (e : env) : mutator :=
  {| mu_type := Generic UnaryOp; mu_mutable := vy_unary_mutable; mu_mutate := vy_unary_mutate e |}.

(** ** [VyperMutatorFactory::mutator_for] (1814-1857) *)
Definition vy_mutator_for (e : env) (t : mutation_type) : option mutator :=
  match t with
  | Generic g =>
      match g with
      | ArithmeticBinaryOp => Some (vy_binop e t arithmetic_operators)
      | LogicalBinaryOp => Some (vy_binop e t logical_operators)
      | BitwiseBinaryOp => Some (vy_binop e t bitwise_operators)
      | BitshiftBinaryOp => Some (vy_binop e t bitshift_operators)
      | ComparisonBinaryOp => Some (vy_binop e t comparison_operators)
      | Assignment => Some (vy_assign e)
      | DeleteStatement => Some (vy_delete e)
      | FunctionCall => Some (vy_call e)
      | SwapFunctionArguments => Some (vy_swapargs e)
      | IfStatement => Some (vy_if e)
      | Integer => Some (vy_int e)
      | SwapOperatorArguments => Some (vy_swapop e)
      | SwapLines => Some (vy_swaplines e)
      | UnaryOp => Some (vy_unary e)
      end
  | Solidity _ => None
  end.
