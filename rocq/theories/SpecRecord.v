(** Vocabulary for what the record of a mutation says about the mutation. *)
From Coq Require Import String List NArith ZArith Bool.
From Verif Require Import Base Json MutationType Traverse OpCommon SpecOps.
Import ListNotations.
Open Scope list_scope.
Open Scope string_scope.

(** Different inputs have different SHA-256 values. *)
Definition hashes_differ (e : env) : Prop := forall a b, e_sha e a = e_sha e b -> a = b.

(** Floating point numbers written in different ways have different bytes. *)
Definition float_bytes_differ (e : env) : Prop :=
  forall f g, e_float_bytes e f = e_float_bytes e g -> e_show_float e f = e_show_float e g.

(** Mutations of which one node has at most one way to each result.  Left out
    are those where two different random choices may agree: swapping lines in
    either order, equal arguments of a call, an integer that is random anyway. *)
Definition sol_one_way (t : mutation_type) (n : json) : Prop :=
  t <> Generic Integer /\ t <> Generic SwapFunctionArguments /\ t <> Generic SwapLines /\
  (t = Generic FunctionCall -> forall l, has_field n "arguments" (JArr l) -> NoDup l).

(** The same for Vyper, where an assigned integer may be drawn as signed or as
    unsigned. *)
Definition vy_one_way (t : mutation_type) (n : json) : Prop :=
  t <> Generic Integer /\ t <> Generic SwapFunctionArguments /\ t <> Generic SwapLines /\ t <> Generic Assignment /\
  (t = Generic FunctionCall -> forall l, has_field n "args" (JArr l) -> NoDup l).

(** What has to follow the commented-out only statement of a Vyper body. *)
Inductive fills (n : json) : json -> Prop :=
| fill_pass m : (forall x t, has_field n "returns" x -> ~ is_vy t x) -> is_vy "Pass" m -> fills n m
| fill_bool m x id v b : has_field n "returns" x -> is_vy "Name" x -> has_field x "id" (JStr id) ->
    prefix "boo" id = true -> is_vy "Return" m -> has_field m "value" v -> vy_bool_constant b v -> fills n m
| fill_uint m x id v z : has_field n "returns" x -> is_vy "Name" x -> has_field x "id" (JStr id) ->
    prefix "uin" id = true -> is_vy "Return" m -> has_field m "value" v ->
    is_vy "Int" v -> has_field v "value" (jint z) -> (0 <= z < 10)%Z -> fills n m
| fill_int m x id v z : has_field n "returns" x -> is_vy "Name" x -> has_field x "id" (JStr id) ->
    prefix "int" id = true -> is_vy "Return" m -> has_field m "value" v ->
    is_vy "Int" v -> has_field v "value" (jint z) -> (-10 <= z <= 10)%Z -> fills n m
| fill_str m x id v s : has_field n "returns" x -> is_vy "Name" x -> has_field x "id" (JStr id) ->
    prefix "str" id = true -> is_vy "Return" m -> has_field m "value" v ->
    is_vy "Str" v -> has_field v "value" (JStr s) -> fills n m
| fill_tuple m x t v l l' : has_field n "returns" x -> (t = "Tuple" \/ t = "List") -> is_vy t x ->
    has_field x "elements" (JArr l) -> is_vy "Return" m -> has_field m "value" v ->
    is_vy t v -> has_field v "elements" (JArr l') -> length l' = length l -> fills n m.

(** The return types for which the operator knows a value: none, [bool...],
    [uint...], [int...], [str...], a tuple or a list. *)
Definition fillable (n : json) : Prop :=
  forall x t, has_field n "returns" x -> is_vy t x ->
    (t = "Name" /\ exists id, has_field x "id" (JStr id)) \/
    ((t = "Tuple" \/ t = "List") /\ exists l, has_field x "elements" (JArr l)).

(** The node a Solidity mutation of [n] into [n'] is about: the removed
    statement, the statement put into an unchecked block, the argument that
    replaced the call; otherwise [n] itself. *)
Inductive sol_site : mutation_type -> json -> json -> json -> Prop :=
| sol_site_removed n n' l l' i x c : has_field n "statements" (JArr l) -> nth_error l i = Some x ->
    sol_commented x c -> slot_becomes i c l l' -> has_field n' "statements" (JArr l') ->
    sol_site (Generic DeleteStatement) n n' x
| sol_site_wrapped n n' l l' i x c : has_field n "statements" (JArr l) -> nth_error l i = Some x ->
    sol_unchecked_of x c -> slot_becomes i c l l' -> has_field n' "statements" (JArr l') ->
    sol_site (Solidity UncheckedBlock) n n' x
| sol_site_argument n n' l : has_field n "arguments" (JArr l) -> In n' l ->
    sol_site (Generic FunctionCall) n n' n'
| sol_site_itself t n n' :
    t <> Generic DeleteStatement -> t <> Solidity UncheckedBlock -> t <> Generic FunctionCall ->
    sol_site t n n' n.

(** The same for Vyper, where the unary operator is replaced by its operand. *)
Inductive vy_site : mutation_type -> json -> json -> json -> Prop :=
| vy_site_removed n n' l l' i x c : has_field n "body" (JArr l) -> nth_error l i = Some x ->
    vy_commented x c -> nth_error l' i = Some c -> has_field n' "body" (JArr l') ->
    vy_site (Generic DeleteStatement) n n' x
| vy_site_argument n n' l : has_field n "args" (JArr l) -> In n' l ->
    vy_site (Generic FunctionCall) n n' n'
| vy_site_operand n n' : has_field n "operand" n' ->
    vy_site (Generic UnaryOp) n n' n'
| vy_site_itself t n n' :
    t <> Generic DeleteStatement -> t <> Generic FunctionCall -> t <> Generic UnaryOp ->
    vy_site t n n' n.

(** The record [mr] carries the number that [x] has under [key]. *)
Definition names (key : string) (mr : mutator_result) (x : json) : Prop :=
  forall k, (k < 2 ^ 63)%N -> has_field x key (juint k) -> mr_node mr = Some k.
