(** Specification vocabulary for the mutant generator: reading off a run's
    events what was written. *)
From Coq Require Import String Ascii List Bool NArith Arith Permutation.
From Verif Require Import Base Json Rng Permissions MutationType Traverse OpCommon Language Paths Generator
  SpecTree SpecMutation.
Import ListNotations.
Open Scope string_scope.
Open Scope list_scope.

(** The two languages of the tool. *)
Definition supported (G : glang) : Prop :=
  exists e, G = solidity_files e \/ G = vyper_files e.

(** The mutants that came out of a run, to files or to the terminal. *)
Definition mutant_of (ev : event) : list (json * mutator_result) :=
  match ev with
  | WroteMutant _ a mr => [(a, mr)]
  | ShowedMutant a mr => [(a, mr)]
  | _ => []
  end.
Definition mutants (evs : list event) : list (json * mutator_result) := flat_map mutant_of evs.

(** The files mutants were written to. *)
Definition mutant_file (ev : event) : list string :=
  match ev with WroteMutant f _ _ => [f] | _ => [] end.
Definition mutant_files (evs : list event) : list string := flat_map mutant_file evs.

(** The [k]-th name made from a file name. *)
Definition numbered (base ext : string) (k : nat) : string :=
  String.append base (String "_" (String.append (show_N (N.of_nat k)) (String "." ext))).

(** How many single mutations were attempted. *)
Definition is_try (ev : event) : bool := match ev with Tried _ _ => true | _ => false end.
Definition tries (evs : list event) : nat := length (filter is_try evs).

(** The mutants recorded under a type. *)
Definition of_type (t : mutation_type) (x : json * mutator_result) : bool :=
  match mr_type (snd x) with Some t' => mt_eqb t t' | None => false end.

(** The number of (type, node) pairs in a count table. *)
Definition pairs (c : count_table) : nat := list_sum (map (fun t => reported t c) all_mutation_types).

(** Every file a run creates, overwrites or removes. *)
Definition touched_by (ev : event) : list string :=
  match ev with
  | Validated tmp _ _ => [tmp]
  | WroteMutant f _ _ => [f]
  | WroteOriginal f _ => [f]
  | WroteConfig f => [f]
  | _ => []
  end.
Definition touched (evs : list event) : list string := flat_map touched_by evs.

(** The order of a [HashMap] rearranges its entries. *)
Definition rearranges (o : mutator_map -> mutator_map) : Prop :=
  forall ms, Permutation (o ms) ms.

(** What the counting pass of a run reports. *)
Definition run_counts (G : glang) (W : world) (P : run_params) (ast : json) (c : count_table) : Prop :=
  count_mutable_nodes (permissions_for_functions (rp_functions P))
    (w_order W (select_mutators (gl_lang G) (rp_types P) [])) ast = Ok c.

(** The same run with other types requested, and in a world whose hash maps
    are ordered differently. *)
Definition with_types (ts : list mutation_type) (P : run_params) : run_params := {|
  rp_file := rp_file P; rp_count := rp_count P; rp_outdir := rp_outdir P; rp_stdout := rp_stdout P;
  rp_types := ts; rp_verify := rp_verify P; rp_original := rp_original P; rp_save := rp_save P;
  rp_functions := rp_functions P |}.
Definition with_order (o : mutator_map -> mutator_map) (W : world) : world := {|
  w_accepts := w_accepts W; w_print := w_print W; w_config := w_config W; w_tmp := w_tmp W; w_order := o |}.

(** The temporary files a run validated mutants with. *)
Definition validated_file (ev : event) : list string :=
  match ev with Validated tmp _ _ => [tmp] | _ => [] end.
Definition validated_files (evs : list event) : list string := flat_map validated_file evs.

(** Two runs side by side.  Every event of a run takes file system steps:
    validating means writing the temporary file, compiling what the file then
    holds, and removing it.  Other writes leave something else in the file. *)
Inductive fs_step : Type :=
| Put (file : string) (content : option json)
| Compile (file : string) (mine : json)
| Remove (file : string).

Definition fs_steps (ev : event) : list fs_step :=
  match ev with
  | Validated tmp ast _ => [Put tmp (Some ast); Compile tmp ast; Remove tmp]
  | _ => map (fun f => Put f None) (touched_by ev)
  end.

(** [l] is an interleaving of [a] and [b]. *)
Inductive interleaved {A} : list A -> list A -> list A -> Prop :=
| il_nil : interleaved [] [] []
| il_left x a b l : interleaved a b l -> interleaved (x :: a) b (x :: l)
| il_right x a b l : interleaved a b l -> interleaved a (x :: b) (x :: l).

(** What a file holds after some steps: the tree last written to it, if the
    last step that concerns it wrote one. *)
Definition fs_after (f : string) (content : option json) (s : fs_step) : option json :=
  match s with
  | Put f' c => if (f' =?s f)%string then c else content
  | Remove f' => if (f' =?s f)%string then None else content
  | Compile _ _ => content
  end.
Definition holds (steps : list fs_step) (f : string) : option json := fold_left (fs_after f) steps None.

(** Every verdict of the compiler concerns the mutant it was asked about. *)
Definition own_verdicts (steps : list fs_step) : Prop :=
  forall before f ast after, steps = before ++ Compile f ast :: after -> holds before f = Some ast.
