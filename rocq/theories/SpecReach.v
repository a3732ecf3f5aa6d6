(** Vocabulary for "this result can come out": a finite number of random draws
    that force it; and the catalogue of the results of every operator. *)
From Coq Require Import String List NArith ZArith Bool.
From Verif Require Import Base Json Rng MutationType Traverse OpCommon SpecOps SpecAccept.
Import ListNotations.
Open Scope list_scope.
Open Scope string_scope.

(** The next draws of the generator are those of the list. *)
Definition begins (l : list N) (r : rng) : Prop :=
  forall k d, nth_error l k = Some d -> rstream r (rpos r + k) = d.

(** Some draws make the operator turn [n] into a node satisfying [P], whatever
    comes after them. *)
Definition can_give (m : mutator) (n : json) (P : json -> Prop) : Prop :=
  exists l, forall r, begins l r -> forall fuel, exists d, mu_mutate m (S fuel) n r = Ok d /\ P (md_node d).

(** No draws do. *)
Definition never_gives (m : mutator) (n : json) (P : json -> Prop) : Prop :=
  forall r fuel d, mu_mutate m fuel n r = Ok d -> ~ P (md_node d).

(** The field [k] gets a value satisfying [Q], the list [l] under [k] a new
    element at place [i], two exchanged elements. *)
Definition gets (k : string) (Q : json -> Prop) (n n' : json) : Prop :=
  exists v, Q v /\ field_becomes k v n n'.
Definition gets_at (k : string) (l : list json) (i : nat) (Q : json -> Prop) (n n' : json) : Prop :=
  exists v l', Q v /\ slot_becomes i v l l' /\ field_becomes k (JArr l') n n'.
Definition gets_swapped (k : string) (l : list json) (i j : nat) (n n' : json) : Prop :=
  exists l', exchanged i j l l' /\ field_becomes k (JArr l') n n'.

(** The places [i] and [j] hold the first two arguments of type [t]. *)
Definition first_two (t : string) (l : list json) (i j : nat) : Prop :=
  i < j /\ (exists x, nth_error l i = Some x /\ sol_type_of x t) /\
  (exists y, nth_error l j = Some y /\ sol_type_of y t) /\
  (forall k z, k < j -> k <> i -> nth_error l k = Some z -> ~ sol_type_of z t).

(** Everything a Solidity operator of kind [t] may turn [n] into. *)
Inductive sol_outcome (n : json) : mutation_type -> (json -> Prop) -> Prop :=
| so_binary : forall g class op op', sol_class g = Some class ->
    has_field n "operator" (JStr op) -> In op' class -> op' <> op ->
    sol_outcome n (Generic g) (gets "operator" (eq (JStr op')) n)
| so_unary : forall p op op', has_field n "prefix" (JBool p) -> has_field n "operator" (JStr op) ->
    In op' (if p then prefix_ops else postfix_ops) -> op' <> op ->
    sol_outcome n (Generic UnaryOp) (gets "operator" (eq (JStr op')) n)
| so_bool : sol_type_of n "bool" ->
    sol_outcome n (Generic Assignment) (gets "rightHandSide" (sol_bool_literal false) n)
| so_uint : forall k z, (0 < k <= 256)%N -> sol_type_of n ("uint" ++ show_N k) ->
    (0 <= z < 2 ^ Z.of_N (N.min k 128) - 1)%Z ->
    sol_outcome n (Generic Assignment) (gets "rightHandSide" (sol_number_literal z) n)
| so_int : forall k z, (0 < k <= 127)%N -> sol_type_of n ("int" ++ show_N k) ->
    (- 2 ^ (Z.of_N k - 1) <= z < 2 ^ (Z.of_N k - 1))%Z ->
    sol_outcome n (Generic Assignment) (gets "rightHandSide" (sol_number_literal z) n)
| so_delete : forall l i x, has_field n "statements" (JArr l) -> nth_error l i = Some x ->
    is_sol "ExpressionStatement" x ->
    sol_outcome n (Generic DeleteStatement) (gets_at "statements" l i (sol_commented x) n)
| so_call : forall l x, has_field n "arguments" (JArr l) -> In x l -> ~ is_sol "Literal" x ->
    sol_outcome n (Generic FunctionCall) (eq x)
| so_swapargs : forall l t i j, has_field n "arguments" (JArr l) -> first_two t l i j ->
    sol_outcome n (Generic SwapFunctionArguments) (gets_swapped "arguments" l i j n)
| so_if_const : forall b,
    sol_outcome n (Generic IfStatement) (gets "condition" (sol_bool_literal b) n)
| so_if_not : forall c, has_field n "condition" c ->
    sol_outcome n (Generic IfStatement) (gets "condition" (sol_negation c) n)
| so_int_more : forall k, (k < 9223372036854775807)%N -> has_field n "value" (JStr (show_N k)) ->
    sol_outcome n (Generic Integer) (gets "value" (eq (JStr (show_N (k + 1)))) n)
| so_int_less : forall k, (k < 9223372036854775807)%N -> has_field n "value" (JStr (show_N k)) ->
    sol_outcome n (Generic Integer) (gets "value" (eq (JStr (show_Z (Z.of_N k - 1)))) n)
| so_int_any : forall u, (u < 2 ^ 64)%N ->
    sol_outcome n (Generic Integer) (gets "value" (eq (JStr (show_N u))) n)
| so_swapop : forall a b, has_field n "leftExpression" a -> has_field n "rightExpression" b ->
    sol_outcome n (Generic SwapOperatorArguments)
      (two_fields_become "leftExpression" b "rightExpression" a n)
| so_swaplines : forall l i j x y, has_field n "statements" (JArr l) -> i <> j ->
    nth_error l i = Some x -> nth_error l j = Some y -> ~ is_sol "Return" x -> ~ is_sol "Return" y ->
    sol_outcome n (Generic SwapLines) (gets_swapped "statements" l i j n)
| so_require : forall l x, has_field n "arguments" (JArr l) -> nth_error l 0 = Some x ->
    sol_outcome n (Solidity Require) (gets_at "arguments" l 0 (sol_negation x) n)
| so_unchecked : forall l i x, has_field n "statements" (JArr l) -> nth_error l i = Some x ->
    ~ is_sol "Return" x -> ~ is_sol "UncheckedBlock" x ->
    sol_outcome n (Solidity UncheckedBlock) (gets_at "statements" l i (sol_unchecked_of x) n)
| so_delegate :
    sol_outcome n (Solidity ElimDelegateCall) (gets "memberName" (eq (JStr "call")) n).

(** Vyper literals: an integer, and a number too large for 64 bits, which is
    kept as a floating point number. *)
Definition vy_integer (z : Z) (v : json) : Prop := is_vy "Int" v /\ has_field v "value" (jint z).
Definition vy_huge (v : json) : Prop :=
  is_vy "Int" v /\ exists m x, has_field v "value" (JNum (NumF m x)).
Definition vy_decimal (text : string) (v : json) : Prop :=
  is_vy "Decimal" v /\ has_field v "value" (JStr text).
Definition vy_string (text : string) (v : json) : Prop :=
  is_vy "Str" v /\ has_field v "value" (JStr text).
Definition vy_return_of (Q : json -> Prop) (v : json) : Prop :=
  is_vy "Return" v /\ exists x, Q x /\ has_field v "value" x.
Definition vy_none (v : json) : Prop := is_vy "NameConstant" v /\ has_field v "value" JNull.
Definition vy_nones (kind : string) (size : nat) (v : json) : Prop :=
  is_vy kind v /\ exists l, has_field v "elements" (JArr l) /\ length l = size /\ Forall vy_none l.

(** Fields the Vyper compiler always emits and the catalogue relies on. *)
Definition vy_complete (n : json) : Prop :=
  (is_vy "Int" n -> exists v, has_field n "value" v) /\
  (is_vy "BinOp" n \/ is_vy "Compare" n -> exists a b, has_field n "left" a /\ has_field n "right" b).

(** What is returned for a declared type. *)
Inductive vy_default_value : string -> (json -> Prop) -> Prop :=
| vd_bool : forall id b, text_starts "boo" id -> vy_default_value id (vy_bool_constant b)
| vd_uint : forall id z, text_starts "uin" id -> (0 <= z < 10)%Z -> vy_default_value id (vy_integer z)
| vd_int : forall id z, text_starts "int" id -> In z [-10; -6; 6; 10]%Z -> vy_default_value id (vy_integer z)
| vd_str : forall id, text_starts "str" id -> vy_default_value id 
    (vy_string "Lorem ipsum dolor sit amet, consectetur adipiscing elit, sed do eiusmod tempor incididunt ut labore et dolore magna aliqua.").

(** What is put behind the commented-out only statement of the body of [n]. *)
Inductive vy_filler (n : json) : (list json -> Prop) -> Prop :=
| vf_pass : (forall ret t, has_field n "returns" ret -> ~ is_vy t ret) ->
    vy_filler n (fun more => exists v, is_vy "Pass" v /\ more = [v])
| vf_named : forall ret id Q, has_field n "returns" ret -> is_vy "Name" ret -> has_field ret "id" (JStr id) ->
    vy_default_value id Q -> vy_filler n (fun more => exists v, vy_return_of Q v /\ more = [v])
| vf_group : forall ret kind l, has_field n "returns" ret -> In kind ["Tuple"; "List"] -> is_vy kind ret ->
    has_field ret "elements" (JArr l) ->
    vy_filler n (fun more => exists v, vy_return_of (vy_nones kind (length l)) v /\ more = [v])
| vf_nothing : forall ret t, has_field n "returns" ret -> is_vy t ret ->
    (t = "Name" -> forall id, ~ has_field ret "id" (JStr id)) ->
    (In t ["Tuple"; "List"] -> forall l, ~ has_field ret "elements" (JArr l)) ->
    vy_filler n (eq []).

(** Everything a Vyper operator of kind [t] may turn [n] into. *)
Inductive vy_outcome (e : env) (n : json) : mutation_type -> (json -> Prop) -> Prop :=
| vo_operator : forall g class op old new, vy_class g = Some class -> has_field n "op" op -> is_vy old op ->
    In new class -> new <> old ->
    vy_outcome e n (Generic g) (gets "op" (field_becomes "ast_type" (JStr new) op) n)
| vo_assign_int : forall z, (-2 ^ 63 <= z < 2 ^ 64)%Z ->
    vy_outcome e n (Generic Assignment) (gets "value" (vy_integer z) n)
| vo_assign_huge : vy_outcome e n (Generic Assignment) (gets "value" vy_huge n)
| vo_assign_bool : forall b, vy_outcome e n (Generic Assignment) (gets "value" (vy_bool_constant b) n)
| vo_assign_decimal : forall d,
    vy_outcome e n (Generic Assignment) (gets "value" (vy_decimal (e_show_float e (e_rand_float e d))) n)
| vo_delete : forall l i x, has_field n "body" (JArr l) -> 2 <= length l -> nth_error l i = Some x ->
    vy_outcome e n (Generic DeleteStatement) (gets_at "body" l i (vy_commented x) n)
| vo_delete_only : forall x F, has_field n "body" (JArr [x]) -> vy_filler n F ->
    vy_outcome e n (Generic DeleteStatement)
      (fun n' => exists c more, vy_commented x c /\ F more /\ field_becomes "body" (JArr (c :: more)) n n')
| vo_call : forall l x, has_field n "args" (JArr l) -> In x l -> vy_outcome e n (Generic FunctionCall) (eq x)
| vo_swapargs : forall l i j, has_field n "args" (JArr l) -> i <> j -> i < length l -> j < length l ->
    vy_outcome e n (Generic SwapFunctionArguments) (gets_swapped "args" l i j n)
| vo_if_const : forall b, vy_outcome e n (Generic IfStatement) (gets "test" (vy_bool_constant b) n)
| vo_if_not : forall c, has_field n "test" c ->
    vy_outcome e n (Generic IfStatement) (gets "test" (vy_negation c) n)
| vo_int_more : forall z, (-2 ^ 63 < z < 2 ^ 63 - 1)%Z -> has_field n "value" (jint z) ->
    vy_outcome e n (Generic Integer) (gets "value" (eq (jint (z + 1))) n)
| vo_int_less : forall z, (-2 ^ 63 < z < 2 ^ 63 - 1)%Z -> has_field n "value" (jint z) ->
    vy_outcome e n (Generic Integer) (gets "value" (eq (jint (z - 1))) n)
| vo_int_any : forall z, (-2 ^ 63 <= z < 2 ^ 63)%Z ->
    vy_outcome e n (Generic Integer) (gets "value" (eq (jint z)) n)
| vo_int_same : (forall z, ~ has_field n "value" (jint z)) -> vy_outcome e n (Generic Integer) (eq n)
| vo_swapop : forall a b, has_field n "left" a -> has_field n "right" b ->
    vy_outcome e n (Generic SwapOperatorArguments) (two_fields_become "left" b "right" a n)
| vo_swaplines : forall l i j x y, has_field n "body" (JArr l) -> i <> j ->
    nth_error l i = Some x -> nth_error l j = Some y -> ~ is_vy "Return" x -> ~ is_vy "Return" y ->
    vy_outcome e n (Generic SwapLines) (gets_swapped "body" l i j n)
| vo_unary : forall x, has_field n "operand" x -> vy_outcome e n (Generic UnaryOp) (eq x).
