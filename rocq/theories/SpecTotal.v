(** Specification vocabulary for "operators neither crash nor hang": fair
    random streams, and the shape of the nodes the compilers produce. *)
From Coq Require Import String List NArith ZArith Bool.
From Verif Require Import Base Json Rng MutationType OpCommon SpecOps.
Import ListNotations.
Open Scope list_scope.
Open Scope string_scope.

(** Every reduced value keeps coming up, both for [next_u64] reduced modulo
    [n] and for a direct draw below [n]. *)
Definition fair (r : rng) : Prop :=
  forall n i pos, (0 < n <= 2 ^ 64)%N -> (i < n)%N ->
    exists k, pos <= k /\ ((rstream r k mod 2 ^ 64) mod n)%N = i /\ (rstream r k mod n)%N = i.

(** The printer used for the comment texts always succeeds, and the hash map
    yields exactly the keys it holds. *)
Definition printer_total (e : env) : Prop := forall n, exists s, e_pp e n = Ok s.
Definition order_total (e : env) : Prop := forall ks k, In k ks -> In k (e_order e ks).

(** No array of a node is longer than the address space. *)
Definition short_arrays (n : json) : Prop :=
  forall k l, has_field n k (JArr l) -> (N.of_nat (length l) <= 2 ^ 64)%N.

(** Fields the Solidity compiler always emits. *)
Definition sol_schema (n : json) : Prop :=
  short_arrays n /\
  (is_sol "BinaryOperation" n -> (exists a, has_field n "leftExpression" a) /\
                                 (exists b, has_field n "rightExpression" b)) /\
  (is_sol "Assignment" n -> exists a, has_field n "rightHandSide" a) /\
  (is_sol "FunctionCall" n -> exists l, has_field n "arguments" (JArr l)).

(** Fields the Vyper compiler always emits. *)
Definition vy_schema (n : json) : Prop :=
  short_arrays n /\
  (is_vy "Assign" n -> exists v, has_field n "value" v) /\
  (is_vy "UnaryOp" n -> exists v, has_field n "operand" v) /\
  (forall l x t, has_field n "args" (JArr l) -> In x l -> ~ has_field x "nodeType" t).

(** At least one, at least two different places of a list satisfy [P]. *)
Definition one_place {A} (P : A -> Prop) (l : list A) : Prop := exists x, In x l /\ P x.
Definition two_places {A} (P : A -> Prop) (l : list A) : Prop :=
  exists i j x y, i <> j /\ nth_error l i = Some x /\ nth_error l j = Some y /\ P x /\ P y.

(** The conditions under which each Solidity operator really works. *)
Definition sol_supported (t : mutation_type) (n : json) : Prop :=
  match t with
  | Generic Assignment =>
      sol_type_of n "bool" \/
      (exists k, (0 < k <= 256)%N /\ sol_type_of n ("uint" ++ show_N k)) \/
      (exists k, (0 < k <= 127)%N /\ sol_type_of n ("int" ++ show_N k))
  | Generic Integer =>
      exists k, (k < 9223372036854775807)%N /\ has_field n "value" (JStr (show_N k))
  | Generic FunctionCall =>
      exists l, has_field n "arguments" (JArr l) /\ one_place (fun x => ~ is_sol "Literal" x) l
  | Generic SwapLines =>
      exists l, has_field n "statements" (JArr l) /\ two_places (fun x => ~ is_sol "Return" x) l
  | Solidity UncheckedBlock =>
      exists l, has_field n "statements" (JArr l) /\
        one_place (fun x => ~ is_sol "Return" x /\ ~ is_sol "UncheckedBlock" x) l
  | _ => True
  end.

(** The same for Vyper. *)
Definition vy_supported (t : mutation_type) (n : json) : Prop :=
  match t with
  | Generic DeleteStatement =>
      forall x ret id, has_field n "body" (JArr [x]) -> has_field n "returns" ret ->
        is_vy "Name" ret -> has_field ret "id" (JStr id) ->
        exists s, In s ["boo"; "uin"; "int"; "str"] /\ exists rest, id = s ++ rest /\
          (forall c rest', rest = String c rest' -> is_cont_byte c = false)
  | Generic Integer =>
      forall z, has_field n "value" (jint z) -> (-9223372036854775808 < z < 9223372036854775807)%Z
  | Generic SwapOperatorArguments => ~ is_vy "BoolOp" n
  | Generic SwapLines =>
      exists l, has_field n "body" (JArr l) /\ two_places (fun x => ~ is_vy "Return" x) l
  | _ => True
  end.

(** The part of these conditions that concerns crashes. *)
Definition sol_crash_free (t : mutation_type) (n : json) : Prop :=
  match t with
  | Generic Assignment | Generic Integer => sol_supported t n
  | _ => True
  end.
Definition vy_crash_free (t : mutation_type) (n : json) : Prop :=
  match t with
  | Generic DeleteStatement | Generic Integer | Generic SwapOperatorArguments => vy_supported t n
  | _ => True
  end.

(** Neither a panic nor an error: a value, or the fuel was too small for the
    retry loop. *)
Definition no_crash {A} (r : res A) : Prop := (exists a, r = Ok a) \/ r = Diverge.

(** The first two values an operator draws: [next_u64() % n], [next_u64()]. *)
Definition first_draw (r : rng) (n : N) : N := ((rstream r (rpos r) mod 2 ^ 64) mod n)%N.
Definition second_draw (r : rng) : N := (rstream r (S (rpos r)) mod 2 ^ 64)%N.
