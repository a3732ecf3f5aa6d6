(** The parts of Rust's [std::path] the command line uses, for Unix paths. *)
From Coq Require Import String Ascii List Bool.
From Verif Require Import Base.
Import ListNotations.
Open Scope string_scope.
Open Scope list_scope.

Definition starts_with_slash (s : string) : bool :=
  match s with String c _ => Ascii.eqb c "/" | EmptyString => false end.

Fixpoint ends_with_slash (s : string) : bool :=
  match s with
  | EmptyString => false
  | String c EmptyString => Ascii.eqb c "/"
  | String _ s => ends_with_slash s
  end.

(** [Path::components] without the root: empty and ["."] parts are skipped,
    except a leading ["."]. *)
Definition components (s : string) : list string :=
  match split_on "/" s with
  | [] => []
  | first :: rest =>
      let keep := fun c => negb (is_empty_str c || (c =?s "."))%bool in
      (if is_empty_str first then [] else [first]) ++ filter keep rest
  end.

(** [Path::file_name]: the last component when it is a normal one. *)
Definition file_name (s : string) : option string :=
  match rev (components s) with
  | [] => None
  | c :: _ => if ((c =?s ".") || (c =?s ".."))%bool then None else Some c
  end.

(** [Path::join]. *)
Definition path_join (dir name : string) : string :=
  if starts_with_slash name then name
  else if (is_empty_str dir || ends_with_slash dir)%bool then String.append dir name
  else String.append dir (String "/" name).

(** [str::ends_with]. *)
Fixpoint ends_with (suffix s : string) : bool :=
  (s =?s suffix) || match s with EmptyString => false | String _ s => ends_with suffix s end.

(** The text before the last ['.'], or the whole text without one
    (mutation_generator.rs:339-345). *)
Fixpoint before_last_dot (s : string) : option string :=
  match s with
  | EmptyString => None
  | String c s =>
      match before_last_dot s with
      | Some p => Some (String c p)
      | None => if Ascii.eqb c "." then Some EmptyString else None
      end
  end.
Definition file_stem (s : string) : string :=
  match before_last_dot s with Some p => p | None => s end.
