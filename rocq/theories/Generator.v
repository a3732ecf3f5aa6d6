(** mutagenyx/src/mutation_generator.rs: [generate_mutations] (252-543), and
    the pieces of pretty_printing.rs and json_ast_language_interface.rs it
    calls to write files and to validate mutants. *)
From Coq Require Import String List Bool NArith Arith.
From Verif Require Import Base Json Rng Permissions MutationType Traverse OpCommon Language Paths.
Import ListNotations.
Open Scope string_scope.
Open Scope list_scope.

(** A language and the extension of its files ([get_file_extension],
    solidity/language_interface.rs:122-124, vyper/language_interface.rs:126-128). *)
Record glang : Type := { gl_lang : lang; gl_ext : string }.
Definition solidity_files (e : env) : glang := {| gl_lang := solidity e; gl_ext := "sol" |}.
Definition vyper_files (e : env) : glang := {| gl_lang := vyper e; gl_ext := "vy" |}.

(** [GeneratorParameters] (generator_parameters.rs:9-48), without the
    preferences (the compiler is the oracle below), the seed (only copied into
    the saved configuration, see ConfigFile.v) and the generator (passed
    separately). *)
Record run_params : Type := {
  rp_file : string;
  rp_count : nat;
  rp_outdir : string;
  rp_stdout : bool;
  rp_types : list mutation_type;
  rp_verify : bool;
  rp_original : bool;
  rp_save : bool;
  rp_functions : list string
}.

(** The outside world.
    [w_accepts k ast]  what the compiler says of the [k]-th program it is
                       given, whose tree is [ast];
    [w_print k ast]    the outcome of the [k]-th print (creating directories
                       and the file, and the printing itself);
    [w_config]         the outcome of writing the configuration file;
    [w_tmp]            the directory for temporary files;
    [w_order]          the order in which the [HashMap] of operators yields
                       its entries. *)
Record world : Type := {
  w_accepts : nat -> json -> bool;
  w_print : nat -> json -> res unit;
  w_config : res unit;
  w_tmp : string;
  w_order : mutator_map -> mutator_map
}.

(** What a run does, in order.  [Validated] stands for: write the temporary
    file, run the compiler on it, remove the file. *)
Inductive event : Type :=
| Tried (t : mutation_type) (i : nat)
| Validated (tmp : string) (ast : json) (accepted : bool)
| WroteMutant (file : string) (ast : json) (mr : mutator_result)
| ShowedMutant (ast : json) (mr : mutator_result)
| WroteOriginal (file : string) (ast : json)
| ShowedOriginal (ast : json)
| WroteConfig (file : string)
| ShowedConfig.

(** The name [pretty_print_ast] writes to (pretty_printing.rs:160-176). *)
Definition printed_name (ext file outdir : string) : res string :=
  match file_name file with
  | None => Panic "called `Option::unwrap()` on a `None` value"
  | Some base =>
      let dotted := String.append "." ext in
      Ok (path_join outdir (String.append base (if ends_with dotted file then "" else dotted)))
  end.

(** The name of mutant number [k] (mutation_generator.rs:502-514). *)
Definition mutant_name (ext file outdir : string) (k : nat) : res string :=
  match file_name file with
  | None => Panic "called `Option::unwrap()` on a `None` value"
  | Some base =>
      printed_name ext
        (path_join outdir (String.append base (String.append "_" (show_N (N.of_nat k))))) outdir
  end.

(** The name of the saved configuration file (mutation_generator.rs:336-349). *)
Definition config_name (file outdir : string) : res string :=
  match file_name file with
  | None => Panic "called `Option::unwrap()` on a `None` value"
  | Some base => Ok (path_join outdir (String.append (file_stem base) ".mgnx"))
  end.

(** The temporary file of [mutant_compiles]
    (json_ast_language_interface.rs:256-260). *)
Definition temp_name (tmp file : string) : res string :=
  match file_name file with
  | None => Panic "called `Option::unwrap()` on a `None` value"
  | Some base => Ok (path_join tmp base)
  end.

(** ** Choosing the types (mutation_generator.rs:362-450) *)

(** Derived [Ord for MutationType] (mutation.rs:16, 195, 222): generic types
    first, then in the order of declaration. *)
Definition mt_rank (m : mutation_type) : nat :=
  match m with
  | Generic g =>
      match g with
      | ArithmeticBinaryOp => 0 | LogicalBinaryOp => 1 | BitwiseBinaryOp => 2
      | BitshiftBinaryOp => 3 | ComparisonBinaryOp => 4 | Assignment => 5
      | DeleteStatement => 6 | FunctionCall => 7 | IfStatement => 8 | Integer => 9
      | SwapFunctionArguments => 10 | SwapOperatorArguments => 11 | SwapLines => 12
      | UnaryOp => 13
      end
  | Solidity s => match s with Require => 14 | UncheckedBlock => 15 | ElimDelegateCall => 16 end
  end.

Fixpoint insert_type (m : mutation_type) (l : list mutation_type) : list mutation_type :=
  match l with
  | [] => [m]
  | m' :: l' => if Nat.leb (mt_rank m) (mt_rank m') then m :: l else m' :: insert_type m l'
  end.

(** The sorted list of types with something to mutate (362-369). *)
Definition usable_types (c : count_table) : list mutation_type :=
  fold_right insert_type [] (map fst (filter (fun kv => Nat.ltb 0 (snd kv)) c)).

(** [selected_algorithm_map] (391-398) as the list of how often each type has
    been selected so far; the limits stay in the table. *)
Definition times (t : mutation_type) (used : count_table) : nat :=
  match ct_get t used with Some k => k | None => 0 end.

(** The sum of the limits (405-409). *)
Definition available (c : count_table) : nat := list_sum (map snd c).

(** The selection loop (419-450).  It has no bound in the code. *)
Fixpoint select_kinds (fuel : nat) (c : count_table) (types : list mutation_type)
  (used : count_table) (chosen remaining : nat) (r : rng) : res (list mutation_type * rng) :=
  match remaining with
  | 0 => Ok ([], r)
  | S rest =>
      match fuel with
      | 0 => Diverge
      | S fuel =>
          match choose types r with
          | (None, r') => select_kinds fuel c types used chosen remaining r'
          | (Some t, r') =>
              if Nat.ltb (times t used) (times t c) then
                let? (ts, r'') := select_kinds fuel c types (ct_bump t used) (S chosen) rest r' in
                Ok (t :: ts, r'')
              else if Nat.leb (available c) chosen then Ok ([], r')
              else select_kinds fuel c types used chosen remaining r'
          end
      end
  end.

(** ** Making the mutants (456-540) *)

(** [PartialEq for MutatorResult] (mutator_result.rs:6). *)
Definition mr_eq_dec (a b : mutator_result) : {a = b} + {a <> b}.
Proof.
  decide equality; decide equality; first [apply string_dec|apply N.eq_dec|apply Nat.eq_dec|apply mutation_type_eq_dec].
Defined.

Definition seen_before (mr : mutator_result) (l : list mutator_result) : bool :=
  if in_dec mr_eq_dec mr l then true else false.

(** The loop's variables: the generator, [observed_mutator_results],
    [files_written], and how many programs have been printed and validated. *)
Record gst : Type := {
  g_rng : rng;
  g_seen : list mutator_result;
  g_written : nat;
  g_prints : nat;
  g_checks : nat
}.

(** [ATTEMPTS_TO_GENERATE_A_MUTANT] (245). *)
Definition attempts_limit : nat := 50.

Section Run.
  Variable G : glang.
  Variable W : world.
  Variable P : run_params.
  Variable ps : permissions.
  Variable ms : mutator_map.
  Variable pm : path_map.
  Variable fuel : nat.
  Variable c : count_table.
  Variable ast : json.

  (** Picking the node (461-467). *)
  Definition pick_index (n : nat) (r : rng) : nat * rng :=
    if Nat.ltb 1 n then let (d, r') := next_u64 r in (N.to_nat (d mod N.of_nat n)%N, r')
    else (0, r).

  (** Writing an accepted mutant (495-521). *)
  Definition emit (ast' : json) (mr : mutator_result) (s : gst) : list event * res unit :=
    if rp_stdout P then ([ShowedMutant ast' mr], w_print W (g_prints s) ast')
    else match mutant_name (gl_ext G) (rp_file P) (rp_outdir P) (g_written s) with
         | Ok file => ([WroteMutant file ast' mr], w_print W (g_prints s) ast')
         | Err e => ([], Err e)
         | Panic m => ([], Panic m)
         | Diverge => ([], Diverge)
         end.

  (** Validating a mutant (484-493): whether it is accepted. *)
  Definition validate (ast' : json) (s : gst) : list event * res bool :=
    if rp_verify P then
      match temp_name (w_tmp W) (rp_file P) with
      | Ok tmp => let b := w_accepts W (g_checks s) ast' in ([Validated tmp ast' b], Ok b)
      | Err e => ([], Err e)
      | Panic m => ([], Panic m)
      | Diverge => ([], Diverge)
      end
    else ([], Ok true).

  (** The inner loop (457-535): up to [tries] more attempts at a mutant of type
      [t]. *)
  Fixpoint attempt (tries : nat) (t : mutation_type) (s : gst) : list event * res gst :=
    match tries with
    | 0 => ([], Ok s)
    | S tries =>
        match ct_get t c with
        | None => ([], Panic "called `Option::unwrap()` on a `None` value")
        | Some n =>
            let (i, r1) := pick_index n (g_rng s) in
            match mutate_ast (gl_lang G) ps ms pm fuel ast t i r1 with
            | Ok (ast', mr, r2) =>
                let s1 := {| g_rng := r2; g_seen := g_seen s; g_written := g_written s;
                             g_prints := g_prints s; g_checks := g_checks s |} in
                if seen_before mr (g_seen s) then
                  let (ev, out) := attempt tries t s1 in (Tried t i :: ev, out)
                else
                  let (ev1, accepted) := validate ast' s1 in
                  match accepted with
                  | Ok true =>
                      let (ev2, written) := emit ast' mr s1 in
                      (Tried t i :: ev1 ++ ev2,
                       match written with
                       | Ok _ => Ok {| g_rng := r2; g_seen := g_seen s ++ [mr];
                                       g_written := S (g_written s); g_prints := S (g_prints s);
                                       g_checks := S (g_checks s) |}
                       | Err e => Err e | Panic m => Panic m | Diverge => Diverge
                       end)
                  | Ok false =>
                      let (ev, out) :=
                        attempt tries t {| g_rng := r2; g_seen := g_seen s; g_written := g_written s;
                                          g_prints := g_prints s; g_checks := S (g_checks s) |} in
                      (Tried t i :: ev1 ++ ev, out)
                  | Err e => (Tried t i :: ev1, Err e)
                  | Panic m => (Tried t i :: ev1, Panic m)
                  | Diverge => (Tried t i :: ev1, Diverge)
                  end
            | Err e => ([Tried t i], Err e)
            | Panic m => ([Tried t i], Panic m)
            | Diverge => ([Tried t i], Diverge)
            end
        end
    end.

  (** The outer loop (456-540). *)
  Fixpoint make_mutants (todo : list mutation_type) (s : gst) : list event * res gst :=
    match todo with
    | [] => ([], Ok s)
    | t :: todo =>
        let (ev, out) := attempt attempts_limit t s in
        match out with
        | Ok s' => let (ev', out') := make_mutants todo s' in (ev ++ ev', out')
        | _ => (ev, out)
        end
    end.
End Run.

(** Printing the original (286-301): events and outcome. *)
Definition print_original (G : glang) (W : world) (P : run_params) (ast : json)
  : list event * res nat :=
  if rp_original P then
    if rp_stdout P then
      ([ShowedOriginal ast], let? _ := w_print W 0 ast in Ok 1)
    else
      match printed_name (gl_ext G) (rp_file P) (rp_outdir P) with
      | Ok file => ([WroteOriginal file ast], let? _ := w_print W 0 ast in Ok 1)
      | Err e => ([], Err e)
      | Panic m => ([], Panic m)
      | Diverge => ([], Diverge)
      end
  else ([], Ok 0).

(** Saving the configuration (305-359). *)
Definition save_config (W : world) (P : run_params) : list event * res unit :=
  if rp_save P then
    match config_name (rp_file P) (rp_outdir P) with
    | Ok file => if rp_stdout P then ([ShowedConfig], w_config W) else ([WroteConfig file], w_config W)
    | Err e => ([], Err e)
    | Panic m => ([], Panic m)
    | Diverge => ([], Diverge)
    end
  else ([], Ok tt).

(** Run the second part when the first returned [Ok]. *)
Definition and_then {A B} (x : list event * res A) (k : A -> list event * res B) : list event * res B :=
  match x with
  | (ev, Ok a) => let (ev', out) := k a in (ev ++ ev', out)
  | (ev, Err e) => (ev, Err e)
  | (ev, Panic m) => (ev, Panic m)
  | (ev, Diverge) => (ev, Diverge)
  end.

(** [generate_mutations], from the point where the tree has been loaded.  A
    new language object is made for every file, so its map of operators
    starts empty. *)
Definition generate (G : glang) (W : world) (P : run_params) (fuel : nat) (ast : json) (r : rng)
  : list event * res gst :=
  let ps := permissions_for_functions (rp_functions P) in
  let ms := w_order W (select_mutators (gl_lang G) (rp_types P) []) in
  and_then ([], count_mutable_nodes ps ms ast) (fun c =>
  and_then ([], calculate_node_paths ps (l_id (gl_lang G)) ast) (fun pm =>
  match c with
  | [] => ([], Err "NoMutableNode")
  | _ =>
      and_then (print_original G W P ast) (fun prints =>
      and_then (save_config W P) (fun _ =>
      and_then ([], select_kinds fuel c (usable_types c) [] 0 (rp_count P) r) (fun tr =>
      make_mutants G W P ps ms pm fuel c ast (fst tr)
        {| g_rng := snd tr; g_seen := []; g_written := 0; g_prints := prints; g_checks := 0 |})))
  end)).
