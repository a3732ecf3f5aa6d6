(** The Solidity operators (mutagenyx_lib/src/solidity/mutators.rs). *)
From Coq Require Import String Ascii List NArith ZArith Bool.
From Verif Require Import Base Json Rng MutationType Traverse OpCommon.
Import ListNotations.
Open Scope list_scope.
Open Scope string_scope.

(** Solidity id maker (solidity/language_interface.rs: key "id"). *)
Definition sol_id : json -> option N := get_ids "id".

(** [node.get_str_for_key("nodeType") == t]. *)
Definition is_type (t : string) (n : json) : bool :=
  match get_str n "nodeType" with Some s => s =?s t | None => false end.

(** [node.get(k)] is an array. *)
Definition arr_of (n : json) (k : string) : option (list json) :=
  match oget n k with Some v => as_array v | None => None end.

(** ** Node builders (28-230) *)

(** [new_integer_constant_node] (28-52). *)
Definition sol_int_node (z : Z) : json :=
  let v := show_Z z in
  mkobj [ ("hexValue", JStr (hex_encode v)); ("id", juint 9999997);
          ("isConstant", JBool false); ("isLValue", JBool false); ("isPure", JBool true);
          ("kind", JStr "number"); ("lValueRequested", JBool false);
          ("nodeType", JStr "Literal");
          ("typeDescriptions",
            mkobj [ ("typeIdentifier", JStr ("t_rational_" ++ v ++ "_by_1"));
                    ("typeString", JStr ("int_const " ++ v)) ]);
          ("value", JStr v) ].

Definition show_bool (b : bool) : string := if b then "true" else "false".

(** [new_boolean_literal_node] (59-80). *)
Definition sol_bool_node (b : bool) : json :=
  mkobj [ ("hexValue", JStr (hex_encode (show_bool b))); ("id", juint 9999998);
          ("isConstant", JBool false); ("isLValue", JBool false); ("isPure", JBool true);
          ("kind", JStr "bool"); ("lValueRequested", JBool false);
          ("nodeType", JStr "Literal");
          ("typeDescriptions",
            mkobj [ ("typeIdentifier", JStr "t_bool"); ("typeString", JStr "bool") ]);
          ("value", JStr (show_bool b)) ].

(** [new_comment_node] (91-107). *)
Definition sol_comment (text : string) : json :=
  set_key (mkobj [ ("id", juint 9999997); ("isConstant", JBool false); ("isLValue", JBool false);
                   ("isPure", JBool false); ("lValueRequested", JBool false);
                   ("nodeType", JStr "Comment"); ("text", JNull) ]) "text" (JStr text).

(** [new_comment_node_from_node] (114-136). *)
Definition sol_comment_node (node : json) : json :=
  let id := match get_int node "id" with Some z => z | None => 9999997%Z end in
  set_key
    (set_key (mkobj [ ("id", juint 9999997); ("isConstant", JBool false); ("isLValue", JBool false);
                      ("isPure", JBool false); ("lValueRequested", JBool false);
                      ("nodeType", JStr "Comment"); ("value", JNull) ]) "value" node)
    "id" (jint id).

(** [new_unary_op_node] (145-167). *)
Definition sol_unary_node (op : string) (prefix : bool) (sub : json) : json :=
  set_key (mkobj [ ("id", juint 9999996); ("isConstant", JBool false); ("isLValue", JBool false);
                   ("isPure", JBool false); ("lValueRequested", JBool false);
                   ("nodeType", JStr "UnaryOperation"); ("operator", JStr op);
                   ("prefix", JBool prefix); ("subExpression", JNull) ]) "subExpression" sub.

(** [new_tuple_expression_node] (174-191). *)
Definition sol_tuple_node (l : list json) : json :=
  set_key (mkobj [ ("id", juint 9999995); ("isConstant", JBool false);
                   ("IsInlineArray", JBool false); ("isLValue", JBool false);
                   ("isPure", JBool false); ("lValueRequested", JBool false);
                   ("nodeType", JStr "TupleExpression"); ("components", JNull) ])
          "components" (JArr l).

(** [new_unchecked_block_node] (198-214). *)
Definition sol_unchecked_node (l : list json) (id : N) : json :=
  set_key (set_key (mkobj [ ("id", juint 9999994); ("nodeType", JStr "UncheckedBlock");
                            ("statements", JNull) ]) "statements" (JArr l))
          "id" (juint id).

(** ** [BinaryOpMutator] (238-353) *)
Definition sol_binop_mutable (ops : list string) (n : json) : res bool :=
  Ok (if is_type "BinaryOperation" n then
        match get_str n "operator" with Some op => smem op ops | None => false end
      else false).

Definition sol_binop_mutate (e : env) (t : mutation_type) (ops : list string)
  (fuel : nat) (n : json) (r : rng) : res mutated :=
  match get_str n "operator" with
  | Some op =>
      let? (c, r') := pick_until fuel
                        (choose_or "RandomOperationFailure: invalid operator choice" ops)
                        (fun c => op =?s c) r in
      let n' := set_str n "operator" c in
      Ok (done t n' (sol_id n') (Some (hash e c))
            (sol_comment (show_mt t ++ " Mutator: changed '" ++ op ++ "' to '" ++ c ++ "'")) r')
  | None =>
      Ok {| md_node := n;
            md_result := {| mr_type := Some t; mr_index := None; mr_node := None; mr_hash := None |};
            md_comment := None; md_rng := r |}
  end.

Definition sol_binop (e : env) (t : mutation_type) (ops : list string) : mutator :=
  {| mu_type := t; mu_mutable := sol_binop_mutable ops; mu_mutate := sol_binop_mutate e t ops |}.

(** ** [UnaryOpMutator] (356-500) *)
Definition sol_unary_mutable (n : json) : res bool :=
  Ok (if is_type "UnaryOperation" n then
        match get_bool n "prefix" with
        | Some p =>
            match get_str n "operator" with
            | Some op => smem op (if p then prefix_operators else postfix_operators)
            | None => false
            end
        | None => false
        end
      else false).

Definition sol_unary_mutate (e : env) (fuel : nat) (n : json) (r : rng) : res mutated :=
  match get_bool n "prefix" with
  | None => Err "MalformedNode: UnaryOperator prefix"
  | Some p =>
      let ops := if p then prefix_operators else postfix_operators in
      let op := match get_str n "operator" with Some s => s | None => "" end in
      let? (c, r') := pick_until fuel
          (choose_or "RandomOperationFailure: Did not select a good replacement operator" ops)
          (fun c => op =?s c) r in
      let n' := set_str n "operator" c in
      Ok (done (Generic UnaryOp) n' (sol_id n')
            (Some (hash e (byte_str (if p then 0 else 1)%N ++ c)))
            (sol_comment ("UnaryOp Mutator: Changed '" ++ op ++ "' to '" ++ c ++ "'")) r')
  end.

Definition sol_unary (e : env) : mutator :=
  {| mu_type := Generic UnaryOp; mu_mutable := sol_unary_mutable; mu_mutate := sol_unary_mutate e |}.

(** ** [AssignmentMutator] (510-709) *)
Definition sol_assign_type (n : json) : option string :=
  match oget n "typeDescriptions" with Some d => get_str d "typeString" | None => None end.

Definition sol_assign_mutable (n : json) : res bool :=
  if is_type "Assignment" n then
    match sol_assign_type n with
    | Some ts =>
        if N.ltb (slen ts) 3 then Ok false
        else let? pre := slice_to 3 ts in Ok (smem pre ["uin"; "int"; "boo"])
    | None => Ok false
    end
  else Ok false.

(** The new right hand side and the hashed bytes (602-674).  [2_i128.pow(127)]
    overflows [i128]: with overflow checks that panics, without them both
    bounds wrap to the same value and [gen_range] panics.  [type_size - 1] for
    size 0 underflows; without checks the huge power wraps to 0 and
    [gen_range] panics again. *)
Definition sol_assign_value (ts : string) (r : rng) : res (option json * string * rng) :=
  let? pre := slice_to 3 ts in
  if pre =?s "int" then
    let? size_s := slice_from 3 ts in
    match parse_unsigned 32 size_s with
    | None => Panic "called `Result::unwrap()` on an `Err` value"
    | Some size =>
        let size := if N.ltb 128 size then 128%N else size in
        if (N.eqb size 0 || N.eqb size 128)%bool then Panic "i128 overflow"
        else
          let b := (2 ^ (Z.of_N size - 1))%Z in
          let? (v, r') := gen_range (- b) b r in
          Ok (Some (sol_int_node v), "int" ++ le_bytes_Z 16 v, r')
    end
  else if pre =?s "uin" then
    let? size_s := slice_from 4 ts in
    match parse_unsigned 32 size_s with
    | None => Panic "called `Result::unwrap()` on an `Err` value"
    | Some size =>
        let size := if N.ltb 128 size then 128%N else size in
        let upper := (2 ^ Z.of_N size - 1)%Z in
        let? (v, r') := gen_range 0 upper r in
        Ok (Some (sol_int_node v), "uin" ++ le_bytes_Z 16 v, r')
    end
  else if pre =?s "boo" then
    if ts =?s "bool" then
      let? (v, r') := gen_range 0 1 r in
      Ok (Some (sol_bool_node (negb (Z.eqb v 0))), "boo" ++ le_bytes_Z 1 v, r')
    else Panic "assertion failed: type_string == bool"
  else Ok (None, "", r).

Definition sol_assign_mutate (e : env) (fuel : nat) (n : json) (r : rng) : res mutated :=
  match sol_assign_type n with
  | None => Err "MalformedNode: Assignment typeDescriptions/typeString"
  | Some ts =>
      match oget n "rightHandSide" with
      | None => Err "MalformedNode: Assignment rightHandSide"
      | Some rhs =>
          let? old_s := e_pp e rhs in
          let? (v, bytes, r') := sol_assign_value ts r in
          let n' := match v with Some v => set_key n "rightHandSide" v | None => n end in
          match oget n' "rightHandSide" with
          | None => Err "MalformedNode: Assignment rightHandSize"
          | Some rhs' =>
              let? new_s := e_pp e rhs' in
              Ok (done (Generic Assignment) n' (sol_id n') (Some (hash e bytes))
                    (sol_comment ("Assignment Mutator: Replaced '" ++ old_s ++ "' with '" ++ new_s ++ "'"))
                    r')
          end
      end
  end.

Definition sol_assign (e : env) : mutator :=
  {| mu_type := Generic Assignment; mu_mutable := sol_assign_mutable; mu_mutate := sol_assign_mutate e |}.

(** ** [DeleteStatementMutator] (715-829) *)
Definition sol_delete_mutable (n : json) : res bool :=
  Ok (if is_type "Block" n then
        match arr_of n "statements" with
        | Some l => (Nat.ltb 1 (length l) && existsb (is_type "ExpressionStatement") l)%bool
        | None => false
        end
      else false).

(** Positions satisfying a test, in increasing order. *)
Fixpoint indexes_from {A} (i : nat) (f : A -> bool) (l : list A) : list nat :=
  match l with
  | [] => []
  | x :: l => if f x then i :: indexes_from (S i) f l else indexes_from (S i) f l
  end.
Definition indexes {A} := @indexes_from A 0.

Definition sol_delete_mutate (e : env) (fuel : nat) (n : json) (r : rng) : res mutated :=
  match take_key n "statements" with
  | Some (JArr l, n0) =>
      let idx := indexes (fun v => is_object v && is_type "ExpressionStatement" v)%bool l in
      let? (k, r') := random_index (length idx) r in
      let? i := vec_get idx k in
      let? value := vec_get l i in
      let? value_s := e_pp e value in
      let n' := set_key n0 "statements" (JArr (vec_put i (sol_comment_node value) l)) in
      Ok (done (Generic DeleteStatement) n' (sol_id value) (Some (hash e (usize_bytes k)))
            (sol_comment ("DeleteStatement Mutator: deleted statement '" ++ value_s ++ "'")) r')
  | _ => Err "MalformedNode: Block statements"
  end.

Definition sol_delete (e : env) : mutator :=
  {| mu_type := Generic DeleteStatement; mu_mutable := sol_delete_mutable;
     mu_mutate := sol_delete_mutate e |}.

(** ** [FunctionCallMutator] (860-973) *)
Definition sol_call_mutable (n : json) : res bool :=
  Ok (if is_type "FunctionCall" n then
        match arr_of n "arguments" with
        | Some [] => false
        | Some l => if existsb (is_type "Literal") l then Nat.ltb 1 (length l) else true
        | None => false
        end
      else false).

(** Does the element at [i] have node type [t]?  (An index out of range never
    occurs.) *)
Definition type_at (t : string) (l : list json) (i : nat) : bool :=
  match nth_error l i with Some v => is_type t v | None => false end.

Definition sol_call_mutate (e : env) (fuel : nat) (n : json) (r : rng) : res mutated :=
  match arr_of n "arguments" with
  | Some l =>
      let? old_s := e_pp e n in
      let? (i, r') := pick_until fuel (random_index (length l)) (type_at "Literal" l) r in
      let? n' := vec_get l i in
      let? new_s := e_pp e n' in
      Ok (done (Generic FunctionCall) n' (if is_object n' then sol_id n' else None)
            (Some (hash e (usize_bytes i)))
            (sol_comment ("FunctionCall Mutator: replaced '" ++ old_s ++ "' with '" ++ new_s ++ "'")) r')
  | None => Err "MalformedNode: FunctionCall arguments"
  end.

Definition sol_call (e : env) : mutator :=
  {| mu_type := Generic FunctionCall; mu_mutable := sol_call_mutable; mu_mutate := sol_call_mutate e |}.

(** ** [SwapFunctionArgumentsMutator] (979-1125) *)

(** [value.get("typeDescriptions")?.get_str_for_key("typeString")?]. *)
Definition arg_type (v : json) : option string :=
  match oget v "typeDescriptions" with Some d => get_str d "typeString" | None => None end.

Fixpoint arg_groups_from (i : nat) (l : list json) (g : list (string * list (nat * json)))
  : list (string * list (nat * json)) :=
  match l with
  | [] => g
  | v :: l => arg_groups_from (S i) l
                (match arg_type v with Some t => group_add t (i, v) g | None => g end)
  end.
Definition arg_groups (l : list json) := arg_groups_from 0 l [].

Definition sol_swapargs_mutable (n : json) : res bool :=
  Ok (if is_type "FunctionCall" n then
        match arr_of n "arguments" with
        | Some l =>
            if Nat.ltb 1 (length l)
            then existsb (fun g => Nat.leb 2 (length (snd g))) (arg_groups l)
            else false
        | None => false
        end
      else false).

Definition sol_swapargs_mutate (e : env) (fuel : nat) (n : json) (r : rng) : res mutated :=
  match take_key n "arguments" with
  | Some (JArr l, n0) =>
      let lists := big_groups (e_order e) (arg_groups l) in
      let? (k, r') := random_index (length lists) r in
      let? g := vec_get lists k in
      let? (i1, a1) := vec_get g 0 in
      let? (i2, a2) := vec_get g 1 in
      let? s1 := e_pp e a1 in
      let? s2 := e_pp e a2 in
      let n' := set_key n0 "arguments" (JArr (vec_put i2 a1 (vec_put i1 a2 l))) in
      Ok (done (Generic SwapFunctionArguments) n' (sol_id n') (Some (hash e (usize_bytes k)))
            (sol_comment ("SwapFunctionArguments Mutator: switched '" ++ s1 ++ "' for '" ++ s2 ++ "'")) r')
  | _ => Err "MalformedNode: FunctionCall arguments"
  end.

Definition sol_swapargs (e : env) : mutator :=
  {| mu_type := Generic SwapFunctionArguments; mu_mutable := sol_swapargs_mutable;
     mu_mutate := sol_swapargs_mutate e |}.

(** ** [IfStatementMutator] (1133-1267) *)
Definition sol_if_mutable (n : json) : res bool :=
  Ok (if is_type "IfStatement" n then
        match oget n "condition" with Some c => negb (is_null c) | None => false end
      else false).

Definition sol_if_mutate (e : env) (fuel : nat) (n : json) (r : rng) : res mutated :=
  match oget n "condition" with
  | None => Err "MalformedNode: IfStatement condition"
  | Some c =>
      let? old_s := e_pp e c in
      let? (k, r') := next_mod 3 r in
      let n' :=
        match k with
        | 0 => set_key n "condition" (sol_bool_node true)
        | 1 => set_key n "condition" (sol_bool_node false)
        | _ => match take_key n "condition" with
               | Some (c, n0) => set_key n0 "condition" (sol_unary_node "!" true (sol_tuple_node [c]))
               | None => n
               end
        end%N in
      match oget n' "condition" with
      | None => Err "MalformedNode: IfStatement condition"
      | Some c' =>
          let? new_s := e_pp e c' in
          Ok (done (Generic IfStatement) n' (sol_id n') (Some (hash e (byte_str k)))
                (sol_comment ("IfStatement Mutator: changed condition '" ++ old_s ++ "' to '" ++ new_s ++ "'"))
                r')
      end
  end.

Definition sol_if (e : env) : mutator :=
  {| mu_type := Generic IfStatement; mu_mutable := sol_if_mutable; mu_mutate := sol_if_mutate e |}.

(** ** [IntegerMutator] (1275-1387) *)
Definition sol_int_mutable (n : json) : res bool :=
  Ok (if is_type "Literal" n then
        match get_str n "kind" with
        | Some k =>
            if k =?s "number" then
              match get_str n "value" with Some v => negb (str_contains "." v) | None => false end
            else false
        | None => false
        end
      else false).

(** [+1] / [-1] on the literal text; [unwrap] on a failed parse. *)
Definition sol_int_shift (oc : bool) (v : string) (d : Z) : res string :=
  match parse_i64 v with
  | None => Panic "called `Result::unwrap()` on an `Err` value"
  | Some z => let? z' := i64_add oc z d in Ok (show_Z z')
  end.

Definition sol_int_mutate (e : env) (fuel : nat) (n : json) (r : rng) : res mutated :=
  let? (k, r1) := next_mod 3 r in
  let? (n', old_s, new_s, r2) :=
    match k with
    | 2 =>
        let old := match get_str n "value" with Some v => v | None => "" end in
        let (d, r2) := next_u64 r1 in
        Ok (set_str n "value" (show_N d), old, show_N d, r2)
    | _ =>
        match get_str n "value" with
        | Some v =>
            let? v' := sol_int_shift (e_oc e) v (if N.eqb k 0 then 1 else -1)%Z in
            Ok (set_str n "value" v', v, v', r1)
        | None => Ok (n, "", "", r1)
        end
    end%N in
  Ok (done (Generic Integer) n' (sol_id n') (Some (hash e (byte_str k)))
        (sol_comment ("Integer Mutator: changed '" ++ old_s ++ "' to '" ++ new_s ++ "'")) r2).

Definition sol_int (e : env) : mutator :=
  {| mu_type := Generic Integer; mu_mutable := sol_int_mutable; mu_mutate := sol_int_mutate e |}.

(** ** [SwapOperatorArgumentsMutator] (1394-1485) *)
Definition sol_swapop_mutable (n : json) : res bool :=
  Ok (if is_type "BinaryOperation" n then
        match get_str n "operator" with
        | Some op => smem op non_commutative_operators
        | None => false
        end
      else false).

Definition sol_swapop_mutate (e : env) (fuel : nat) (n : json) (r : rng) : res mutated :=
  match take_key n "leftExpression" with
  | Some (a, n0) =>
      match take_key n0 "rightExpression" with
      | Some (b, n1) =>
          let? sa := e_pp e a in
          let? sb := e_pp e b in
          let n' := set_key (set_key n1 "leftExpression" b) "rightExpression" a in
          Ok (done (Generic SwapOperatorArguments) n' (sol_id n') (Some (hash e (sa ++ sb)))
                (sol_comment ("SwapOperatorArguments Mutator: switched '" ++ sa ++ "' and '" ++ sb ++ "'"))
                r)
      | None => Err "MalformedNode: BinaryOperation rightExpression"
      end
  | None => Err "MalformedNode: BinaryOperation leftExpression"
  end.

Definition sol_swapop (e : env) : mutator :=
  {| mu_type := Generic SwapOperatorArguments; mu_mutable := sol_swapop_mutable;
     mu_mutate := sol_swapop_mutate e |}.

(** ** [SwapLinesMutator] (1492-1640) *)
Definition sol_swaplines_mutable (n : json) : res bool :=
  Ok (if is_type "Block" n then
        match arr_of n "statements" with
        | Some l =>
            (Nat.leb 2 (length l) &&
             (negb (existsb (is_type "Return") l) || Nat.leb 3 (length l)))%bool
        | None => false
        end
      else false).

Definition sol_swaplines_mutate (e : env) (fuel : nat) (n : json) (r : rng) : res mutated :=
  match take_key n "statements" with
  | Some (JArr l, n0) =>
      let? (i, r1) := pick_until fuel (random_index (length l)) (type_at "Return" l) r in
      let? (j, r2) := pick_until fuel (random_index (length l))
                        (fun j => if Nat.eqb j i then true else type_at "Return" l j) r1 in
      let? (l', x, y) := vec_swap i j l in
      let? sx := e_pp e x in
      let? sy := e_pp e y in
      let n' := set_key n0 "statements" (JArr l') in
      Ok (done (Generic SwapLines) n' (sol_id n') (Some (hash e (usize_bytes i ++ usize_bytes j)))
            (sol_comment ("SwapLines Mutator: swapped line '" ++ sx ++ "' with line '" ++ sy ++ "'")) r2)
  | _ => Err "MalformedNode: Block statements"
  end.

Definition sol_swaplines (e : env) : mutator :=
  {| mu_type := Generic SwapLines; mu_mutable := sol_swaplines_mutable;
     mu_mutate := sol_swaplines_mutate e |}.

(** ** [SolidityRequireMutator] (1658-1824) *)
Definition sol_require_mutable (n : json) : res bool :=
  Ok (is_type "FunctionCall" n &&
      match oget n "expression" with
      | Some x => match get_str x "name" with Some s => s =?s "require" | None => false end
      | None => false
      end &&
      negb (match get_array n "arguments" with Some [] => true | _ => false end))%bool.

(** The negated argument (1727-1793). *)
Definition sol_require_node (arg : json) : json :=
  mkobj [ ("id", juint 99999); ("isConstant", JBool false); ("isLValue", JBool false);
          ("isPure", JBool true); ("lValueRequested", JBool false);
          ("nodeType", JStr "UnaryOperation"); ("operator", JStr "!"); ("prefix", JBool true);
          ("typeDescriptions",
             mkobj [ ("typeIdentifier", JStr "t_bool"); ("typeString", JStr "bool") ]);
          ("subExpression",
             mkobj [ ("id", juint 99996); ("isConstant", JBool false);
                     ("isInlineArray", JBool false); ("isLValue", JBool false);
                     ("isPure", JBool false); ("lValueRequested", JBool false);
                     ("nodeType", JStr "TupleExpression");
                     ("typeDescriptions",
                        mkobj [ ("typeIdentifier", JStr "t_bool"); ("typeString", JStr "bool") ]);
                     ("components", JArr [arg]) ]) ].

(** [take_argument(0)] (solidity/ast.rs:30-37) leaves [null] behind, which
    [set_node_for_key_at_index] then overwrites. *)
Definition sol_require_mutate (e : env) (fuel : nat) (n : json) (r : rng) : res mutated :=
  match arr_of n "arguments" with
  | Some (arg :: _) =>
      let? old_s := e_pp e arg in
      let new := sol_require_node arg in
      let? new_s := e_pp e new in
      let n' := set_key_at (set_key_at n "arguments" 0 JNull) "arguments" 0 new in
      Ok (done (Solidity Require) n' (sol_id n') (Some (hash e new_s))
            (sol_comment ("Require Mutator: Changing '" ++ old_s ++ "' to '" ++ new_s ++ "'")) r)
  | _ => Err "MalformedNode: FunctionCall arguments"
  end.

Definition sol_require (e : env) : mutator :=
  {| mu_type := Solidity Require; mu_mutable := sol_require_mutable;
     mu_mutate := sol_require_mutate e |}.

(** ** [SolidityUncheckedBlockMutator] (1831-1966) *)
Definition sol_unchecked_mutable (n : json) : res bool :=
  Ok (if is_type "Block" n then
        match arr_of n "statements" with
        | Some [] => false
        | Some l =>
            let required := 1 + (if existsb (is_type "Return") l then 1 else 0)
                              + (if existsb (is_type "UncheckedBlock") l then 1 else 0) in
            Nat.leb required (length l)
        | None => false
        end
      else false).

Definition sol_unchecked_mutate (e : env) (fuel : nat) (n : json) (r : rng) : res mutated :=
  match take_key n "statements" with
  | Some (JArr l, n0) =>
      let? (i, r') := pick_until fuel (random_index (length l))
                        (fun i => type_at "Return" l i || type_at "UncheckedBlock" l i)%bool r in
      let? w := vec_get l i in
      let id := match get_int w "id" with Some z => i64_as_u64 z | None => 9999999%N end in
      let? ws := e_pp e w in
      let u := sol_unchecked_node [w] id in
      let? us := e_pp e u in
      let n' := set_key n0 "statements" (JArr (vec_put i u l)) in
      Ok (done (Solidity UncheckedBlock) n' (Some id) (Some (hash e (usize_bytes i)))
            (sol_comment ("UncheckedBlock Mutator: Changing '" ++ ws ++ "' to '" ++ us ++ "'")) r')
  | _ => Err "MalformedNode: Block statements"
  end.

Definition sol_unchecked (e : env) : mutator :=
  {| mu_type := Solidity UncheckedBlock; mu_mutable := sol_unchecked_mutable;
     mu_mutate := sol_unchecked_mutate e |}.

(** ** [SolidityElimDelegateCallMutator] (1972-2029) *)
Definition sol_delegate_mutable (n : json) : res bool :=
  Ok (if is_type "MemberAccess" n then
        match get_str n "memberName" with Some s => s =?s "delegatecall" | None => false end
      else false).

Definition sol_delegate_mutate (e : env) (fuel : nat) (n : json) (r : rng) : res mutated :=
  let n' := set_str n "memberName" "call" in
  Ok (done (Solidity ElimDelegateCall) n' (sol_id n') None
        (sol_comment "ElimDelegateCall Mutator: replace 'delegatecall' with 'call'") r).

Definition sol_delegate (e : env) : mutator :=
  {| mu_type := Solidity ElimDelegateCall; mu_mutable := sol_delegate_mutable;
     mu_mutate := sol_delegate_mutate e |}.

(** ** [SolidityMutatorFactory::mutator_for] (2033-2084) *)
Definition sol_mutator_for (e : env) (t : mutation_type) : option mutator :=
  match t with
  | Generic g =>
      match g with
      | ArithmeticBinaryOp => Some (sol_binop e t arithmetic_operators)
      | LogicalBinaryOp => Some (sol_binop e t logical_operators)
      | BitwiseBinaryOp => Some (sol_binop e t bitwise_operators)
      | BitshiftBinaryOp => Some (sol_binop e t bitshift_operators)
      | ComparisonBinaryOp => Some (sol_binop e t comparison_operators)
      | Assignment => Some (sol_assign e)
      | DeleteStatement => Some (sol_delete e)
      | FunctionCall => Some (sol_call e)
      | SwapFunctionArguments => Some (sol_swapargs e)
      | IfStatement => Some (sol_if e)
      | Integer => Some (sol_int e)
      | SwapOperatorArguments => Some (sol_swapop e)
      | SwapLines => Some (sol_swaplines e)
      | UnaryOp => Some (sol_unary e)
      end
  | Solidity s =>
      match s with
      | Require => Some (sol_require e)
      | UncheckedBlock => Some (sol_unchecked e)
      | ElimDelegateCall => Some (sol_delegate e)
      end
  end.
