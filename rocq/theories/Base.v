(** Basic vocabulary shared by every model file: results of Rust functions,
    byte strings, decimal and hexadecimal text, machine integers.

    A Rust [String]/[&str] is modelled by a Coq [string], that is, by its
    sequence of UTF-8 bytes.  Lengths are therefore byte lengths, as in Rust. *)
From Coq Require Import String Ascii List NArith ZArith Bool Lia.
From Coq Require Import DecimalString DecimalNat DecimalN DecimalZ.
Import ListNotations.
Open Scope string_scope.
Open Scope list_scope.

Arguments N.add : simpl never.
Arguments N.sub : simpl never.
Arguments N.mul : simpl never.
Arguments N.modulo : simpl never.
Arguments N.div : simpl never.
Arguments N.pow : simpl never.
Arguments N.ltb : simpl never.
Arguments N.leb : simpl never.
Arguments N.eqb : simpl never.
Arguments Z.add : simpl never.
Arguments Z.sub : simpl never.
Arguments Z.mul : simpl never.
Arguments Z.pow : simpl never.
Arguments Z.modulo : simpl never.

(** ** Outcomes

    [Ok a]      the Rust function returned (for a [Result]: returned [Ok a]);
    [Err e]     the Rust function returned [Err(e)] (only the variant name and
                its text are kept, error.rs);
    [Panic m]   the Rust code panics ([unwrap] on [None], failed [assert_eq!],
                slice out of range, arithmetic overflow, ...);
    [Diverge]   the fuel given to an unbounded Rust loop ran out. *)
Inductive res (A : Type) : Type :=
| Ok (a : A)
| Err (e : string)
| Panic (m : string)
| Diverge.
Arguments Ok {A} a.
Arguments Err {A} e.
Arguments Panic {A} m.
Arguments Diverge {A}.

Definition bind {A B} (r : res A) (f : A -> res B) : res B :=
  match r with
  | Ok a => f a
  | Err e => Err e
  | Panic m => Panic m
  | Diverge => Diverge
  end.

Notation "'let?' x ':=' r 'in' k" := (bind r (fun x => k))
  (at level 200, x pattern, r at level 100, k at level 200, right associativity).

Definition is_ok {A} (r : res A) : bool :=
  match r with Ok _ => true | _ => false end.

(** ** Strings *)

Infix "=?s" := String.eqb (at level 70, no associativity).

Fixpoint smem (s : string) (l : list string) : bool :=
  match l with
  | [] => false
  | x :: l => if s =?s x then true else smem s l
  end.

Definition is_empty_str (s : string) : bool :=
  match s with EmptyString => true | _ => false end.

Fixpoint slen (s : string) : N :=
  match s with
  | EmptyString => 0
  | String _ s => N.succ (slen s)
  end.

(** [str_take n s] and [str_drop n s]: first [n] bytes / the rest. *)
Fixpoint str_take (n : nat) (s : string) : string :=
  match n, s with
  | S n, String c s => String c (str_take n s)
  | _, _ => EmptyString
  end.

Fixpoint str_drop (n : nat) (s : string) : string :=
  match n, s with
  | S n, String _ s => str_drop n s
  | _, _ => s
  end.

(** A byte is a UTF-8 continuation byte (0b10xxxxxx). *)
Definition is_cont_byte (c : ascii) : bool :=
  let n := N_of_ascii c in (N.leb 128 n && N.ltb n 192)%bool.

(** [str::is_char_boundary] for an index given in unary. *)
Definition is_char_boundary (n : nat) (s : string) : bool :=
  if Nat.eqb n (String.length s) then true
  else match str_drop n s with
       | EmptyString => false
       | String c _ => negb (is_cont_byte c)
       end.

(** [&s[..n]] and [&s[n..]]: panic when [n] is out of range or not on a
    character boundary. *)
Definition slice_to (n : nat) (s : string) : res string :=
  if (Nat.leb n (String.length s) && is_char_boundary n s)%bool then Ok (str_take n s)
  else Panic "str slice".

Definition slice_from (n : nat) (s : string) : res string :=
  if (Nat.leb n (String.length s) && is_char_boundary n s)%bool then Ok (str_drop n s)
  else Panic "str slice".

(** [str::find(char)] is [Some _] iff the character occurs. *)
Fixpoint str_contains (c : ascii) (s : string) : bool :=
  match s with
  | EmptyString => false
  | String d s => if Ascii.eqb c d then true else str_contains c s
  end.

(** [str::split(char)]. *)
Fixpoint split_on (c : ascii) (s : string) : list string :=
  match s with
  | EmptyString => [EmptyString]
  | String d s' =>
      if Ascii.eqb c d then EmptyString :: split_on c s'
      else match split_on c s' with
           | [] => [String d EmptyString]
           | w :: ws => String d w :: ws
           end
  end.

(** [str::replace(pat, to)] for a two byte pattern [ab]. *)
Fixpoint replace2 (a b : ascii) (to s : string) : string :=
  match s with
  | EmptyString => EmptyString
  | String x s' =>
      match s' with
      | EmptyString => String x EmptyString
      | String y s'' =>
          if (Ascii.eqb a x && Ascii.eqb b y)%bool then String.append to (replace2 a b to s'')
          else String x (replace2 a b to s')
      end
  end.

(** ** Decimal text *)

(** [to_string] of an unsigned integer. *)
Definition show_N (n : N) : string := NilZero.string_of_uint (N.to_uint n).

(** [to_string] of a signed integer. *)
Definition show_Z (z : Z) : string :=
  match z with
  | Zneg p => String "-" (show_N (Npos p))
  | Z0 => show_N 0
  | Zpos p => show_N (Npos p)
  end.

(** One or more decimal digits, leading zeros allowed. *)
Definition parse_digits (s : string) : option N :=
  option_map N.of_uint (NilZero.uint_of_string s).

(** [str::parse::<uN>] for a type with [2^bits] values: optional ['+'], then
    digits, no overflow. *)
Definition parse_unsigned (bits : N) (s : string) : option N :=
  let digits := match s with String "+" r => r | _ => s end in
  match parse_digits digits with
  | Some n => if (n <? 2 ^ bits)%N then Some n else None
  | None => None
  end.

(** [str::parse::<i64>]: optional sign, digits, range check. *)
Definition parse_i64 (s : string) : option Z :=
  match s with
  | String "-" r =>
      match parse_digits r with
      | Some n => if (n <=? 2 ^ 63)%N then Some (- Z.of_N n)%Z else None
      | None => None
      end
  | _ =>
      match parse_digits (match s with String "+" r => r | _ => s end) with
      | Some n => if (n <? 2 ^ 63)%N then Some (Z.of_N n) else None
      | None => None
      end
  end.

(** ** Bytes and hexadecimal text *)

Definition hex_digit (n : N) : ascii :=
  match n with
  | 0 => "0" | 1 => "1" | 2 => "2" | 3 => "3" | 4 => "4" | 5 => "5" | 6 => "6" | 7 => "7"
  | 8 => "8" | 9 => "9" | 10 => "a" | 11 => "b" | 12 => "c" | 13 => "d" | 14 => "e" | _ => "f"
  end%N%char.

(** [hex::encode]. *)
Fixpoint hex_encode (s : string) : string :=
  match s with
  | EmptyString => EmptyString
  | String c s =>
      let n := N_of_ascii c in
      String (hex_digit (n / 16)) (String (hex_digit (n mod 16)) (hex_encode s))
  end.

(** [to_ne_bytes] on a little-endian machine: [k] bytes of [n]. *)
Fixpoint le_bytes (k : nat) (n : N) : string :=
  match k with
  | O => EmptyString
  | S k => String (ascii_of_N (n mod 256)) (le_bytes k (n / 256))
  end.

(** Two's complement of a signed value on [8*k] bits. *)
Definition le_bytes_Z (k : nat) (z : Z) : string :=
  le_bytes k (Z.to_N (z mod 2 ^ (8 * Z.of_nat k))%Z).

(** A string made of one byte. *)
Definition byte_str (n : N) : string := String (ascii_of_N n) EmptyString.

(** ** Machine integers *)

Definition u64_max : N := 18446744073709551615%N.
Definition two64 : N := 18446744073709551616%N.

(** [as u64] from an [i64]. *)
Definition i64_as_u64 (z : Z) : N := Z.to_N (z mod 18446744073709551616)%Z.

Definition in_i64 (z : Z) : bool :=
  ((-9223372036854775808 <=? z) && (z <? 9223372036854775808))%Z%bool.

(** ** Lists *)

(** [Vec::remove(i)] / [Vec::insert(i, x)] (positions in range). *)
Definition remove_at {A} (i : nat) (l : list A) : list A := firstn i l ++ skipn (S i) l.
Definition insert_at {A} (i : nat) (x : A) (l : list A) : list A := firstn i l ++ x :: skipn i l.
(** [l[i] = x] when [i] is in range; no effect otherwise. *)
Fixpoint replace_at {A} (i : nat) (x : A) (l : list A) : list A :=
  match l, i with
  | [], _ => []
  | _ :: l, O => x :: l
  | y :: l, S i => y :: replace_at i x l
  end.
