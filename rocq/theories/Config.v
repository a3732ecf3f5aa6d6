(** mutagenyx_lib/src/language.rs and mutagenyx_lib/src/config_file.rs. *)
From Coq Require Import String Ascii List NArith ZArith Bool.
From Verif Require Import Base Json MutationType Paths Prefs.
Import ListNotations.
Open Scope string_scope.
Open Scope list_scope.

(** [Language] (language.rs:9-20), [FromStr] (22-32) and [Display] (34-43). *)
Inductive language : Type := LSolidity | LVyper.

Definition read_language (s : string) : option language :=
  if s =?s "Solidity" then Some LSolidity
  else if s =?s "Vyper" then Some LVyper
  else None.

Definition show_language (l : language) : string :=
  match l with LSolidity => "Solidity" | LVyper => "Vyper" end.

(** [Path::extension]: what follows the last ['.'] of the file name, unless
    that is its first character. *)
Fixpoint after_last_dot (s : string) : option string :=
  match s with
  | EmptyString => None
  | String c s =>
      match after_last_dot s with
      | Some t => Some t
      | None => if Ascii.eqb c "." then Some s else None
      end
  end.

Definition path_extension (s : string) : option string :=
  match file_name s with
  | None => None
  | Some EmptyString => None
  | Some (String _ rest) => after_last_dot rest
  end.

(** [ConfigurationFileDetails] (config_file.rs:53-86).  Paths are kept as
    their text: [PathBuf] stores it unchanged and [to_str] gives it back. *)
Record details : Type := {
  d_language : option language;
  d_filenames : list string;
  d_count : Z;
  d_seed : option N;
  d_mutations : list mutation_type;
  d_all : bool;
  d_compiler : option prefs;
  d_functions : list string;
  d_verify : bool;
  d_outdir : option string;
  d_original : bool
}.

(** The strings of a JSON array (160-164, 197-201); other entries are skipped. *)
Definition strings_of (l : list json) : list string :=
  flat_map (fun v => match as_str v with Some s => [s] | None => [] end) l.

Definition or_else {A} (o : option A) (d : A) : A := match o with Some a => a | None => d end.

(** [i64 as u64] and [u64 as i64]. *)
Definition z_as_u64 (z : Z) : N := Z.to_N (z mod 18446744073709551616).
Definition n_as_i64 (n : N) : Z :=
  if (n <? 9223372036854775808)%N then Z.of_N n else (Z.of_N n - 18446744073709551616)%Z.

(** The JSON part of [new_from_file] (127-214). *)
Definition details_of_json (j : json) : res details :=
  if (negb (contains_key j "language") || negb (contains_key j "filenames"))%bool
  then Err "ConfigFileMissingRequiredKey"
  else
    match get_str j "language" with
    | None => Panic "called `Option::unwrap()` on a `None` value"
    | Some ls =>
        match read_language ls with
        | None => Err "ConfigFileUnsupportedLanguage"
        | Some lang =>
            let? compiler :=
              match oget j "compiler-details" with
              | Some node => let? p := prefs_of_json node in Ok (Some p)
              | None => Ok None
              end in
            Ok {| d_language := Some lang;
                  d_filenames := or_else (option_map strings_of (get_array j "filenames")) [];
                  d_count := or_else (get_int j "num-mutants") 5%Z;
                  d_seed := option_map z_as_u64 (get_int j "seed");
                  d_mutations :=
                    or_else (option_map (fun l => read_mts (strings_of l)) (get_array j "mutations")) [];
                  d_all := or_else (get_bool j "all-mutations") false;
                  d_compiler := compiler;
                  d_functions := or_else (option_map strings_of (get_array j "functions")) [];
                  d_verify := or_else (get_bool j "validate-mutants") false;
                  d_outdir := get_str j "output-directory";
                  d_original := or_else (get_bool j "print-original") false |}
        end
    end.

(** [new_from_file] (95-222); [load] is [load_json_from_file_with_name]
    (json.rs:26-40), [None] when the file cannot be read as JSON. *)
Definition read_config (load : string -> option json) (file : string) : res details :=
  match path_extension file with
  | None => Err "ConfigFileBadExtension"
  | Some x =>
      if negb (x =?s "mgnx") then Err "ConfigFileBadExtension"
      else match load file with
           | None => Err "ConfigFileNotSupported"
           | Some j => details_of_json j
           end
  end.

Definition set_if (b : bool) (k : string) (v : json) (j : json) : json :=
  if b then set_key j k v else j.
Definition set_opt {A} (o : option A) (k : string) (f : A -> json) (j : json) : json :=
  match o with Some a => set_key j k (f a) | None => j end.
Definition is_nil {A} (l : list A) : bool := match l with [] => true | _ => false end.

(** [convert_to_json] (225-279). *)
Definition json_of_details (d : details) : json :=
  let j := JObj [] in
  let j := set_opt (d_language d) "language" (fun l => JStr (show_language l)) j in
  let j := set_key j "filenames" (JArr (map JStr (d_filenames d))) in
  let j := set_key j "num-mutants" (jint (d_count d)) in
  let j := set_opt (d_seed d) "seed" juint j in
  let j := set_if (negb (is_nil (d_mutations d))) "mutations"
             (JArr (map (fun t => JStr (show_mt t)) (d_mutations d))) j in
  let j := set_if (d_all d) "all-mutations" (JBool (d_all d)) j in
  let j := set_opt (d_compiler d) "compiler-details" json_of_prefs j in
  let j := set_if (negb (is_nil (d_functions d))) "functions" (JArr (map JStr (d_functions d))) j in
  let j := set_key j "validate-mutants" (JBool (d_verify d)) in
  let j := set_opt (d_outdir d) "output-directory" JStr j in
  set_key j "print-original" (JBool (d_original d)).
