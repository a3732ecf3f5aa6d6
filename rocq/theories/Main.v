(** [main] (mutagenyx/src/main.rs:181-218): what the [mutate] and
    [pretty-print] commands write to the standard output, and how the program
    ends.  The messages are those of the [println!] calls in
    mutation_generator.rs and pretty_printing.rs.  [show_error] is the text of an
    error (error.rs), [config_text] the JSON text of a saved configuration and
    [secs] the elapsed time. *)
From Coq Require Import String Ascii List NArith ZArith Bool.
From Verif Require Import Base Json Rng Permissions MutationType Traverse OpCommon Language Paths Generator Prefs Config Compiler Cli.
Import ListNotations.
Open Scope string_scope.
Open Scope list_scope.

(** [println!]. *)
Definition line (s : string) : string := String.append s (String (ascii_of_nat 10) "").
Definition quoted (s : string) : string := String (ascii_of_nat 34) (String.append s (String (ascii_of_nat 34) "")).
Definition all_text (l : list string) : string := fold_right String.append "" l.

(** What an event of a run puts on the standard output (mutation_generator.rs:
    289-301, 352-360, 500-521).  Simplified: the debug form of a name is the name
    in quotes; a tree whose printing fails leaves nothing behind; the message
    for a file that could not be written is kept; the kind of a mutant is taken
    from its record (they are the same, C58). *)
Definition said (text : json -> res string) (config_text : string) (P : run_params) (ev : event) : string :=
  match ev with
  | ShowedOriginal a | ShowedMutant a _ => match text a with Ok t => t | _ => "" end
  | ShowedConfig => config_text
  | WroteOriginal _ _ =>
      line (all_text ["Pretty-printing original file "; quoted (match file_name (rp_file P) with Some b => b | None => "" end); " to "; rp_outdir P])
  | WroteConfig file => line (String.append "Writing configuration file " file)
  | WroteMutant file _ mr =>
      line (all_text [match mr_type mr with Some t => show_mt t | None => "" end; " used to create mutant written to "; file])
  | Tried _ _ | Validated _ _ _ => ""
  end.
Definition said_all (text : json -> res string) (config_text : string) (P : run_params) (evs : list event) : string :=
  all_text (map (said text config_text P) evs).

(** Lines 374-377, 414-417 and 437. *)
Definition nodes_line (c : count_table) : string :=
  line (all_text ["Of the requested mutation algorithms, the AST contains nodes for [";
                  String.concat ", " (map (fun t => quoted (show_mt t)) (usable_types c)); "]"]).
Definition total_line (c : count_table) : string :=
  line (all_text ["AST supports at most "; show_N (N.of_nat (available c)); " different mutations using the requested mutation algorithms"]).
Definition limit_line (count chosen : nat) : string :=
  if Nat.ltb chosen count then
    line (all_text ["Reached the limit of mutable nodes in the AST, lowering requested mutants by "; show_N (N.of_nat (count - chosen)); " to "; show_N (N.of_nat chosen)])
  else "".

(** The standard output of [generate] (268-543), step by step as there. *)
Definition generate_said (text : json -> res string) (config_text : string)
  (G : glang) (W : world) (P : run_params) (fuel : nat) (ast : json) (r : rng) : string :=
  let ps := permissions_for_functions (rp_functions P) in
  let ms := w_order W (select_mutators (gl_lang G) (rp_types P) []) in
  match count_mutable_nodes ps ms ast, calculate_node_paths ps (l_id (gl_lang G)) ast with
  | Ok (x :: c), Ok pm =>
      let c := x :: c in
      let (e1, o1) := print_original G W P ast in
      String.append (said_all text config_text P e1)
      match o1 with
      | Ok prints =>
          let (e2, o2) := save_config W P in
          String.append (said_all text config_text P e2)
          match o2 with
          | Ok _ =>
              String.append (nodes_line c) (String.append (total_line c)
              match select_kinds fuel c (usable_types c) [] 0 (rp_count P) r with
              | Ok tr =>
                  String.append (limit_line (rp_count P) (List.length (fst tr)))
                    (said_all text config_text P (fst (make_mutants G W P ps ms pm fuel c ast (fst tr)
                      {| g_rng := snd tr; g_seen := []; g_written := 0; g_prints := prints; g_checks := 0 |})))
              | _ => ""
              end)
          | _ => ""
          end
      | _ => ""
      end
  | _, _ => ""
  end.

(** [generate_mutations] (252-543) and the loop over the files (237-239). *)
Definition one_said (oc : bool) (fl : Z * Z -> string) (config_text : string) (e : env) (m : machine) (pcg : N -> rng) (W : gparams -> world) (fuel : nat)
  (g : gparams) : string :=
  match recognize m (gp_prefs g) (rp_file (gp_run g)) with
  | Ok (l, t) =>
      match load_ast m l t (gp_prefs g) (rp_file (gp_run g)) with
      | Ok ast => generate_said (tree_text oc fl l) config_text (lang_files e l) (W g) (gp_run g) fuel ast (pcg (gp_rng g))
      | _ => ""
      end
  | _ => ""
  end.
Fixpoint each_said (oc : bool) (fl : Z * Z -> string) (config_text : string) (e : env) (m : machine) (pcg : N -> rng) (W : gparams -> world) (fuel : nat)
  (gs : list gparams) : string :=
  match gs with
  | [] => ""
  | g :: gs =>
      String.append (one_said oc fl config_text e m pcg W fuel g)
        (match snd (run_one e m pcg W fuel g) with Ok _ => each_said oc fl config_text e m pcg W fuel gs | _ => "" end)
  end.

(** How a program ends: a panic is status 101. *)
Inductive ending : Type := Exits (status : N) | Hangs.

(** The last line (211-217). *)
Definition elapsed (secs : string) : string := line (all_text ["Elapsed time: "; secs; "s"]).

(** [Commands::Mutate] (203-207): an error is reported and the program goes on
    to its end. *)
Definition main_mutate (oc : bool) (fl : Z * Z -> string) (config_text : string) (show_error : string -> string) (secs : string)
  (e : env) (m : machine) (pcg : N -> rng) (W : gparams -> world) (fuel : nat) (now : N) (a : mutate_args) : string * ending :=
  let out := match assemble m now a with Ok gs => each_said oc fl config_text e m pcg W fuel gs | _ => "" end in
  match snd (generate_mutants e m pcg W fuel now a) with
  | Ok _ => (String.append out (elapsed secs), Exits 0)
  | Err x => (String.append out (String.append (line (String.append "Unable to generate mutations: " (show_error x))) (elapsed secs)), Exits 0)
  | Panic _ => (out, Exits 101)
  | Diverge => (out, Hangs)
  end.

(** [Commands::PrettyPrint] (208-210).  [complaint f] is what is said about a
    file that cannot be printed (pretty_printing.rs:49, 60). *)
Definition printed (complaint : string -> string) (s : shown) : string :=
  match s with
  | Shown text => text
  | Saved _ _ => ""
  | Complained f => line (all_text ["Unable to pretty-print "; complaint f])
  end.
Definition main_print (oc : bool) (fl : Z * Z -> string) (complaint : string -> string) (secs : string)
  (m : machine) (a : print_args) : string * ending :=
  let (sh, r) := pretty_print_command m oc fl a in
  let out := all_text (map (printed complaint) sh) in
  match r with
  | Ok _ | Err _ => (String.append out (elapsed secs), Exits 0)
  | Panic _ => (out, Exits 101)
  | Diverge => (out, Hangs)
  end.
