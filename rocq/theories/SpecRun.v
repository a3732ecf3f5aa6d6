(** Vocabulary for "a run can write this mutant". *)
From Coq Require Import String List NArith Bool.
From Verif Require Import Base Json Rng Permissions MutationType Traverse OpCommon Comments Language Paths Generator
  SpecTree SpecMutation SpecGenerator SpecReach.
Import ListNotations.
Open Scope list_scope.

(** Nothing outside the tool gets in the way of the run: printing and saving
    succeed, the input has a file name, and when mutants are validated the
    compiler accepts them. *)
Definition undisturbed (W : world) (P : run_params) : Prop :=
  (forall k a, w_print W k a = Ok tt) /\ w_config W = Ok tt /\
  (exists base, file_name (rp_file P) = Some base) /\
  (rp_verify P = true -> forall k a, w_accepts W k a = true).

(** The run may change the node at [p]: it is not restricted to functions, or
    [p] lies in one of them and these are not nested. *)
Definition open_to_run (P : run_params) (ast : json) (p : path) : Prop :=
  rp_functions P = [] \/
  (rp_functions P <> [] /\ not_nested (rp_functions P) ast /\ inside_named (rp_functions P) ast p).

(** Some draws make the first mutant of the run the program with the node at
    [p] replaced by one satisfying [R], recorded as a mutation of type [t],
    whatever is drawn afterwards.  The mutant may in addition carry the comment
    that describes the mutation. *)
Definition can_write (G : glang) (W : world) (P : run_params) (ast : json) (t : mutation_type)
  (p : path) (R : json -> Prop) : Prop :=
  exists draws bound, forall r fuel, begins draws r -> bound <= fuel ->
  exists x ast1 ast' mr rest,
    mutants (fst (generate G W P fuel ast r)) = (ast', mr) :: rest /\ mr_type mr = Some t /\
    R x /\ replaced_at p x ast ast1 /\
    (ast' = ast1 \/ exists comment path,
       ast' = insert_comment_by_path (l_id (gl_lang G)) (l_member (gl_lang G)) (l_insert (gl_lang G)) ast1 comment path).
