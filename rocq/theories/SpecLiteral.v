(** How Solidity and Vyper read literals: what the property about literals is
    measured against.  Written from the grammars of the two languages. *)
From Coq Require Import String Ascii List NArith ZArith Bool DecimalString.
From Verif Require Import Base.
Import ListNotations.
Open Scope string_scope.

(** UTF-8: the bytes of a code point. *)
Definition byte (n : N) : string := String (ascii_of_N n) EmptyString.

Definition utf8_char (c : N) : string :=
  (if c <? 128 then byte c
   else if c <? 2048 then byte (192 + c / 64) ++ byte (128 + c mod 64)
   else if c <? 65536 then byte (224 + c / 4096) ++ byte (128 + c / 64 mod 64) ++ byte (128 + c mod 64)
   else byte (240 + c / 262144) ++ byte (128 + c / 4096 mod 64) ++ byte (128 + c / 64 mod 64) ++
        byte (128 + c mod 64))%N.

Definition utf8 (l : list N) : string := fold_right (fun c s => utf8_char c ++ s) "" l.

(** Unicode scalar values: what a Rust [char] can be. *)
Definition scalar_value (c : N) : Prop := (c < 55296 \/ 57344 <= c < 1114112)%N.

Definition hex_value (a : ascii) : option N :=
  let n := N_of_ascii a in
  (if (48 <=? n) && (n <=? 57) then Some (n - 48)
   else if (97 <=? n) && (n <=? 102) then Some (n - 87)
   else if (65 <=? n) && (n <=? 70) then Some (n - 55)
   else None)%N%bool.

Definition hex2 (a b : ascii) : option N :=
  match hex_value a, hex_value b with Some x, Some y => Some (16 * x + y)%N | _, _ => None end.
Definition hex4 (a b c d : ascii) : option N :=
  match hex2 a b, hex2 c d with Some x, Some y => Some (256 * x + y)%N | _, _ => None end.

Definition printable (a : ascii) : bool :=
  let n := N_of_ascii a in ((32 <=? n) && (n <=? 126))%N%bool.

(** One-letter escape sequences of Solidity (since 0.7: no \b, \f, \v). *)
Definition sol_escape (a : ascii) : option string :=
  if Ascii.eqb a "n" then Some (byte 10) else if Ascii.eqb a "r" then Some (byte 13)
  else if Ascii.eqb a "t" then Some (byte 9) else if Ascii.eqb a "\" then Some "\"
  else if Ascii.eqb a "'" then Some "'" else if Ascii.eqb a """" then Some """"
  else if Ascii.eqb a "010" then Some "" else None.

(** The rest of a double-quoted Solidity literal: its value in bytes. *)
Fixpoint sol_body (s : string) : option string :=
  match s with
  | EmptyString => None
  | String c s1 =>
      if Ascii.eqb c """" then match s1 with EmptyString => Some "" | _ => None end
      else if Ascii.eqb c "\" then
        match s1 with
        | EmptyString => None
        | String e s2 =>
            if Ascii.eqb e "x" then
              match s2 with
              | String a (String b s3) =>
                  match hex2 a b with
                  | Some v => option_map (String.append (byte v)) (sol_body s3)
                  | None => None
                  end
              | _ => None
              end
            else if Ascii.eqb e "u" then
              match s2 with
              | String a (String b (String d (String f s3))) =>
                  match hex4 a b d f with
                  | Some v => option_map (String.append (utf8_char v)) (sol_body s3)
                  | None => None
                  end
              | _ => None
              end
            else match sol_escape e with
                 | Some v => option_map (String.append v) (sol_body s2)
                 | None => None
                 end
        end
      else if printable c then option_map (String c) (sol_body s1)
      else None
  end.

Definition solidity_string (lit : string) : option string :=
  match lit with String c s => if Ascii.eqb c """" then sol_body s else None | EmptyString => None end.

(** A [unicode"..."] literal: any character but the quote, the backslash and
    line ends stands for itself. *)
Fixpoint unicode_body (s : string) : option string :=
  match s with
  | EmptyString => None
  | String c s1 =>
      if Ascii.eqb c """" then match s1 with EmptyString => Some "" | _ => None end
      else if Ascii.eqb c "\" then
        match s1 with
        | EmptyString => None
        | String e s2 => match sol_escape e with
                         | Some v => option_map (String.append v) (unicode_body s2)
                         | None => None
                         end
        end
      else if Ascii.eqb c "010" || Ascii.eqb c "013" then None
      else option_map (String c) (unicode_body s1)
  end.

Definition solidity_unicode (lit : string) : option string :=
  match lit with String c s => if Ascii.eqb c """" then unicode_body s else None | EmptyString => None end.

(** Python's one-letter escapes (Vyper literals are read by Python's parser);
    an unknown escape is kept as it is. *)
Definition py_escape (a : ascii) : string :=
  if Ascii.eqb a "n" then byte 10 else if Ascii.eqb a "r" then byte 13
  else if Ascii.eqb a "t" then byte 9 else if Ascii.eqb a "\" then "\"
  else if Ascii.eqb a "'" then "'" else if Ascii.eqb a """" then """"
  else if Ascii.eqb a "a" then byte 7 else if Ascii.eqb a "b" then byte 8
  else if Ascii.eqb a "f" then byte 12 else if Ascii.eqb a "v" then byte 11
  else if Ascii.eqb a "010" then "" else String "\" (String a "").

(** The rest of a Python literal closed by the quote [q].  (Octal escapes and
    \N, \u, \U are not needed here and are left out: [None].) *)
Fixpoint py_body (q : ascii) (s : string) : option string :=
  match s with
  | EmptyString => None
  | String c s1 =>
      if Ascii.eqb c q then match s1 with EmptyString => Some "" | _ => None end
      else if Ascii.eqb c "\" then
        match s1 with
        | EmptyString => None
        | String e s2 =>
            if Ascii.eqb e "x" then
              match s2 with
              | String a (String b s3) =>
                  match hex2 a b with
                  | Some v => option_map (String.append (byte v)) (py_body q s3)
                  | None => None
                  end
              | _ => None
              end
            else if smem (String e "") ["N"; "u"; "U"; "0"; "1"; "2"; "3"; "4"; "5"; "6"; "7"] then None
            else option_map (String.append (py_escape e)) (py_body q s2)
        end
      else if Ascii.eqb c "010" || Ascii.eqb c "013" then None
      else option_map (String c) (py_body q s1)
  end.

Definition vyper_string (lit : string) : option string :=
  match lit with String c s => if Ascii.eqb c """" then py_body """" s else None | EmptyString => None end.

Definition vyper_bytes (lit : string) : option string :=
  match lit with
  | String b (String q s) => if Ascii.eqb b "b" && Ascii.eqb q "'" then py_body "'" s else None
  | _ => None
  end.

(** Characters Solidity literals survive with: printable ASCII but the quote and
    the backslash, three control characters with a one-letter escape, and those
    with exactly the number of hexadecimal digits the escapes need. *)
Definition sol_safe (c : N) : Prop :=
  (c = 9 \/ c = 10 \/ c = 13 \/ 16 <= c <= 126 /\ c <> 34 /\ c <> 92 \/
   4096 <= c < 55296 \/ 57344 <= c < 65536)%N.

(** Bytes a Vyper literal survives with. *)
Definition vy_safe (a : ascii) : Prop := a <> """"%char /\ a <> "\"%char /\ a <> "010"%char /\ a <> "013"%char.

Fixpoint every_byte (P : ascii -> Prop) (s : string) : Prop :=
  match s with EmptyString => True | String a s => P a /\ every_byte P s end.

(** A decimal number with an optional minus sign. *)
Definition read_decimal (s : string) : option Z :=
  match NilZero.int_of_string s with Some d => Some (Z.of_int d) | None => None end.
