(** Specification vocabulary for "the same seed gives the same mutants": the
    order in which a hash map yields its entries is not under the program's
    control, and differs from one run to the next. *)
From Coq Require Import String List NArith Bool Permutation.
From Verif Require Import Base Json Rng MutationType OpCommon SpecOps SpecTotal.
Import ListNotations.
Open Scope list_scope.
Open Scope string_scope.

(** The same machine, its hash maps iterating in another order. *)
Definition reorder (e : env) (o : list string -> list string) : env := {|
  e_sha := e_sha e; e_pp := e_pp e; e_order := o; e_oc := e_oc e;
  e_rand_float := e_rand_float e; e_show_float := e_show_float e; e_float_bytes := e_float_bytes e
|}.

(** A hash map yields exactly the keys it holds, each once. *)
Definition shuffles (o : list string -> list string) : Prop := forall ks, Permutation (o ks) ks.

(** At most one type is shared by several arguments of the call [n]. *)
Definition one_shared_type (n : json) : Prop :=
  forall l ts ts', has_field n "arguments" (JArr l) ->
    two_places (fun x => sol_type_of x ts) l -> two_places (fun x => sol_type_of x ts') l -> ts = ts'.
