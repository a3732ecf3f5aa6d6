(** Specification vocabulary for JSON values as serde_json can represent
    them. *)
From Coq Require Import String Ascii List NArith ZArith Bool Sorted.
From Verif Require Import Base Json SpecTree.
Import ListNotations.
Open Scope list_scope.

(** Everywhere in the value, the keys of an object are strictly increasing (so
    each occurs once and there is only one order to visit them in) and numbers
    are in the range of their kind. *)
Definition canonical (j : json) : Prop :=
  (forall p o, subtree p j = Some (JObj o) ->
     StronglySorted (fun a b => str_ltb a b = true) (map fst o)) /\
  (forall p x, subtree p j = Some (JNum x) ->
     match x with
     | NumU n => (n < 2 ^ 64)%N
     | NumI z => (- 2 ^ 63 <= z < 0)%Z
     | NumF _ _ => True
     end).

(** Keys without the two characters that mean something in a JSON pointer. *)
Definition ordinary (k : string) : Prop := str_contains "/"%char k = false /\ str_contains "~"%char k = false.
