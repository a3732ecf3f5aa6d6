(** Specification vocabulary for the statements about whole operators. *)
From Coq Require Import String List NArith ZArith Bool.
From Verif Require Import Base Json Rng MutationType Traverse OpCommon SpecOps SpecTotal.
Import ListNotations.
Open Scope list_scope.
Open Scope string_scope.

(** The operator accepts [n], and some random stream makes it panic or report
    an error, however long it may run. *)
Definition crashes (m : mutator) (n : json) : Prop :=
  mu_mutable m n = Ok true /\ exists r, forall fuel, exists msg,
    mu_mutate m fuel n r = Panic msg \/ mu_mutate m fuel n r = Err msg.

(** The operator accepts [n] but never finishes, whatever the random stream. *)
Definition hangs (m : mutator) (n : json) : Prop :=
  mu_mutable m n = Ok true /\ forall fuel r, mu_mutate m fuel n r = Diverge.

(** The operator decides whether it applies to [n]. *)
Definition classifies (m : mutator) (n : json) : Prop := exists b, mu_mutable m n = Ok b.

(** A comment node carrying text, in each language. *)
Definition sol_text_comment (c : json) : Prop :=
  is_sol "Comment" c /\ exists text, has_field c "text" (JStr text).
Definition vy_text_comment (c : json) : Prop :=
  is_vy "Comment" c /\ exists text, has_field c "value" (JStr text).

(** The operator applies to [n] and changes it (used by the examples). *)
Definition changes (m : option mutator) (n : json) (r : rng) : Prop :=
  exists m' d, m = Some m' /\ mu_mutable m' n = Ok true /\ mu_mutate m' 100 n r = Ok d /\ md_node d <> n.
