(** What the operators of both languages share: the environment they call
    into, the retry loops, and the finished result record. *)
From Coq Require Import String Ascii List NArith ZArith Bool.
From Verif Require Import Base Json Rng MutationType Traverse.
Import ListNotations.
Open Scope string_scope.
Open Scope list_scope.

(** The outside world seen by an operator.

    [e_sha]    SHA-256 (openssl), an arbitrary function on byte strings;
    [e_pp]     [pretty_print_node] (solidity/mutators.rs:221-230,
               vyper/mutators.rs:243-253) of the language at hand;
    [e_order]  the order in which a [HashMap] yields its keys (given in
               insertion order);
    [e_oc]     whether the crate was built with overflow checks;
    [e_rand_float] the [f64] [m * 2^e] that [gen_range(-1.87e40, 1.87e40)]
               (vyper/mutators.rs:549-551) makes of one draw;
    [e_show_float] [Display for f64];  [e_float_bytes] [f64::to_ne_bytes]. *)
Record env : Type := {
  e_sha : string -> string;
  e_pp : json -> res string;
  e_order : list string -> list string;
  e_oc : bool;
  e_rand_float : N -> Z * Z;
  e_show_float : Z * Z -> string;
  e_float_bytes : Z * Z -> string
}.

(** [hex::encode(hasher.finish())] after the given bytes were fed. *)
Definition hash (e : env) (bytes : string) : string := hex_encode (e_sha e bytes).

(** [usize::to_ne_bytes] on a 64 bit machine. *)
Definition usize_bytes (n : nat) : string := le_bytes 8 (N.of_nat n).

(** [loop { let x = next(rand); if bad(x) { continue } ...; break }]. *)
Fixpoint pick_until {A} (fuel : nat) (next : rng -> res (A * rng)) (bad : A -> bool) (r : rng)
  : res (A * rng) :=
  match fuel with
  | O => Diverge
  | S fuel =>
      let? (a, r') := next r in
      if bad a then pick_until fuel next bad r' else Ok (a, r')
  end.

(** [list.choose(rand)] turned into an error on the empty list. *)
Definition choose_or {A} (e : string) (l : list A) (r : rng) : res (A * rng) :=
  match choose l r with
  | (Some x, r') => Ok (x, r')
  | (None, _) => Err e
  end.

(** [(rand.next_u64() % len as u64) as usize]. *)
Definition random_index (len : nat) (r : rng) : res (nat * rng) :=
  let? (i, r') := next_mod (N.of_nat len) r in Ok (N.to_nat i, r').

(** [arr[i]]: panics out of range. *)
Definition vec_get {A} (l : list A) (i : nat) : res A :=
  match nth_error l i with
  | Some x => Ok x
  | None => Panic "index out of bounds"
  end.

(** Vec::remove followed by Vec::insert at the same place. *)
Definition vec_put {A} (i : nat) (x : A) (l : list A) : list A := insert_at i x (remove_at i l).

(** Remove the elements at [large] and then at [small], insert the first at
    [small] and then the second at [large] (solidity/mutators.rs:1587-1606,
    vyper/mutators.rs:1667-1688). *)
Definition vec_swap {A} (a b : nat) (l : list A) : res (list A * A * A) :=
  let larger := if Nat.leb b a then a else b in
  let smaller := if Nat.leb b a then b else a in
  let? x := vec_get l larger in
  let l1 := remove_at larger l in
  let? y := vec_get l1 smaller in
  let l2 := remove_at smaller l1 in
  Ok (insert_at larger y (insert_at smaller x l2), x, y).

(** [x += d] on an [i64]. *)
Definition i64_add (oc : bool) (a b : Z) : res Z :=
  let s := (a + b)%Z in
  if in_i64 s then Ok s
  else if oc then Panic "attempt to add with overflow"
  else Ok ((s + 9223372036854775808) mod 18446744073709551616 - 9223372036854775808)%Z.

Definition get_ids (k : string) (n : json) : option N := option_map i64_as_u64 (get_int n k).

(** Everything [mutate] leaves behind. *)
Definition done (t : mutation_type) (node : json) (id : option N) (h : option string)
  (c : json) (r : rng) : mutated := {|
  md_node := node;
  md_result := {| mr_type := Some t; mr_index := None; mr_node := id; mr_hash := h |};
  md_comment := Some c;
  md_rng := r
|}.

(** Insertion-ordered grouping used for the [HashMap<&str, Vec<IndexedNode>>]
    of the SwapFunctionArguments operators. *)
Fixpoint group_add {A} (k : string) (x : A) (g : list (string * list A)) : list (string * list A) :=
  match g with
  | [] => [(k, [x])]
  | (k', l) :: g => if k =?s k' then (k', l ++ [x]) :: g else (k', l) :: group_add k x g
  end.

(** The lists of the map, in [HashMap] iteration order, that have at least two
    members. *)
Definition big_groups {A} (order : list string -> list string) (g : list (string * list A))
  : list (list A) :=
  flat_map (fun k => match assoc k g with
                     | Some l => if Nat.leb 2 (length l) then [l] else []
                     | None => []
                     end) (order (map fst g)).
