(** Literals: printing and reading back. *)
From Coq Require Import String Ascii List NArith ZArith Bool Lia DecimalString DecimalZ DecimalPos DecimalN.
From Verif Require Import Base Json JsonFacts Printer SolPrinter VyPrinter SpecLiteral TextFacts.
Import ListNotations.
Open Scope string_scope.

(** ** Hexadecimal digits *)

Lemma hex_value_digit : forall n, (n < 16)%N -> hex_value (hex_digit n) = Some n.
Proof.
  intros n H. assert (D : In n (map N.of_nat (seq 0 16))).
  { apply in_map_iff. exists (N.to_nat n). split; [lia|]. apply in_seq. lia. }
  cbn in D. repeat (destruct D as [<-|D]; [reflexivity|]). destruct D.
Qed.

Lemma hex_N_step : forall k n, (16 <= n)%N ->
  hex_digits (S k) n = hex_digits k (n / 16) ++ String (hex_digit (n mod 16)) "".
Proof.
  intros k n H. cbn [hex_digits]. replace (n <? 16)%N with false; [reflexivity|].
  symmetry. apply N.ltb_ge. lia.
Qed.
Lemma hex_N_last : forall k n, (n < 16)%N -> hex_digits (S k) n = String (hex_digit (n mod 16)) "".
Proof. intros k n H. cbn [hex_digits]. replace (n <? 16)%N with true; [reflexivity|]. symmetry. apply N.ltb_lt. lia. Qed.

Lemma hex2_ok : forall n, (16 <= n < 256)%N ->
  exists a b, hex_N n = String a (String b "") /\ hex2 a b = Some n.
Proof.
  intros n H. unfold hex_N. rewrite hex_N_step by lia.
  assert (n / 16 < 16)%N by (apply N.div_lt_upper_bound; lia).
  rewrite hex_N_last by lia. exists (hex_digit (n / 16 mod 16)), (hex_digit (n mod 16)).
  split; [reflexivity|]. unfold hex2.
  rewrite !hex_value_digit by (apply N.mod_lt; lia).
  rewrite (N.mod_small (n / 16)) by lia. f_equal. symmetry. apply N.div_mod'.
Qed.

Lemma hex4_ok : forall n, (4096 <= n < 65536)%N ->
  exists a b c d, hex_N n = String a (String b (String c (String d ""))) /\ hex4 a b c d = Some n.
Proof.
  intros n H. unfold hex_N.
  assert (H1 : (256 <= n / 16 < 4096)%N)
    by (split; [apply N.div_le_lower_bound; lia|apply N.div_lt_upper_bound; lia]).
  assert (H2 : (16 <= n / 16 / 16 < 256)%N)
    by (split; [apply N.div_le_lower_bound; lia|apply N.div_lt_upper_bound; lia]).
  assert (H3 : (n / 16 / 16 / 16 < 16)%N) by (apply N.div_lt_upper_bound; lia).
  rewrite hex_N_step by lia. rewrite hex_N_step by lia. rewrite hex_N_step by lia. rewrite hex_N_last by lia.
  exists (hex_digit (n / 16 / 16 / 16 mod 16)), (hex_digit (n / 16 / 16 mod 16)), (hex_digit (n / 16 mod 16)), (hex_digit (n mod 16)).
  split; [reflexivity|]. unfold hex4, hex2.
  rewrite !hex_value_digit by (apply N.mod_lt; lia).
  rewrite (N.mod_small (n / 16 / 16 / 16)) by lia. f_equal.
  pose proof (N.div_mod' n 16). pose proof (N.div_mod' (n / 16) 16). pose proof (N.div_mod' (n / 16 / 16) 16). lia.
Qed.

(** ** UTF-8 *)

Lemma N_byte : forall n, (n < 256)%N -> N_of_ascii (ascii_of_N n) = n.
Proof. intros n H. now apply N_ascii_embedding. Qed.

Lemma mod_shift : forall x k m, (x < m)%N -> ((k * m + x) mod m = x)%N.
Proof. intros x k m H. rewrite N.add_comm, N.mod_add by lia. now apply N.mod_small. Qed.

Lemma chars_step : forall c s, scalar_value c -> chars (utf8_char c ++ s) = c :: chars s.
Proof.
  intros c s V. unfold scalar_value in V. unfold utf8_char.
  destruct (c <? 128)%N eqn:E1; [apply N.ltb_lt in E1|apply N.ltb_ge in E1].
  - cbn [String.append byte chars]. rewrite N_byte by lia.
    replace (c <? 192)%N with true by (symmetry; apply N.ltb_lt; lia). reflexivity.
  - destruct (c <? 2048)%N eqn:E2; [apply N.ltb_lt in E2|apply N.ltb_ge in E2].
    + assert (c / 64 < 32)%N by (apply N.div_lt_upper_bound; lia).
      pose proof (N.mod_lt c 64 ltac:(lia)). pose proof (N.div_mod' c 64).
      cbn [String.append byte chars]. rewrite !N_byte by lia.
      replace (192 + c / 64 <? 192)%N with false by (symmetry; apply N.ltb_ge; lia).
      replace (192 + c / 64 <? 224)%N with true by (symmetry; apply N.ltb_lt; lia).
      f_equal.
      replace ((192 + c / 64) mod 32)%N with (c / 64)%N
        by (symmetry; exact (mod_shift (c / 64) 6 32 ltac:(lia))).
      replace ((128 + c mod 64) mod 64)%N with (c mod 64)%N
        by (symmetry; exact (mod_shift (c mod 64) 2 64 ltac:(lia))).
      lia.
    + destruct (c <? 65536)%N eqn:E3; [apply N.ltb_lt in E3|apply N.ltb_ge in E3].
      * assert (c / 4096 < 16)%N by (apply N.div_lt_upper_bound; lia).
        pose proof (N.mod_lt c 64 ltac:(lia)). pose proof (N.mod_lt (c / 64) 64 ltac:(lia)).
        pose proof (N.div_mod' c 64). pose proof (N.div_mod' (c / 64) 64).
        assert (Q : (c / 64 / 64 = c / 4096)%N) by (rewrite N.div_div by lia; reflexivity).
        cbn [String.append byte chars]. rewrite !N_byte by lia.
        replace (224 + c / 4096 <? 192)%N with false by (symmetry; apply N.ltb_ge; lia).
        replace (224 + c / 4096 <? 224)%N with false by (symmetry; apply N.ltb_ge; lia).
        replace (224 + c / 4096 <? 240)%N with true by (symmetry; apply N.ltb_lt; lia).
        f_equal.
        replace ((224 + c / 4096) mod 16)%N with (c / 4096)%N
          by (symmetry; exact (mod_shift (c / 4096) 14 16 ltac:(lia))).
        replace ((128 + c / 64 mod 64) mod 64)%N with (c / 64 mod 64)%N
          by (symmetry; exact (mod_shift (c / 64 mod 64) 2 64 ltac:(lia))).
        replace ((128 + c mod 64) mod 64)%N with (c mod 64)%N
          by (symmetry; exact (mod_shift (c mod 64) 2 64 ltac:(lia))).
        lia.
      * assert (c / 262144 < 8)%N by (apply N.div_lt_upper_bound; lia).
        pose proof (N.mod_lt c 64 ltac:(lia)). pose proof (N.mod_lt (c / 64) 64 ltac:(lia)).
        pose proof (N.mod_lt (c / 4096) 64 ltac:(lia)).
        pose proof (N.div_mod' c 64). pose proof (N.div_mod' (c / 64) 64). pose proof (N.div_mod' (c / 4096) 64).
        assert (Q : (c / 64 / 64 = c / 4096)%N) by (rewrite N.div_div by lia; reflexivity).
        assert (Q2 : (c / 4096 / 64 = c / 262144)%N) by (rewrite N.div_div by lia; reflexivity).
        cbn [String.append byte chars]. rewrite !N_byte by lia.
        replace (240 + c / 262144 <? 192)%N with false by (symmetry; apply N.ltb_ge; lia).
        replace (240 + c / 262144 <? 224)%N with false by (symmetry; apply N.ltb_ge; lia).
        replace (240 + c / 262144 <? 240)%N with false by (symmetry; apply N.ltb_ge; lia).
        f_equal.
        replace ((240 + c / 262144) mod 8)%N with (c / 262144)%N
          by (symmetry; exact (mod_shift (c / 262144) 30 8 ltac:(lia))).
        replace ((128 + c / 4096 mod 64) mod 64)%N with (c / 4096 mod 64)%N
          by (symmetry; exact (mod_shift (c / 4096 mod 64) 2 64 ltac:(lia))).
        replace ((128 + c / 64 mod 64) mod 64)%N with (c / 64 mod 64)%N
          by (symmetry; exact (mod_shift (c / 64 mod 64) 2 64 ltac:(lia))).
        replace ((128 + c mod 64) mod 64)%N with (c mod 64)%N
          by (symmetry; exact (mod_shift (c mod 64) 2 64 ltac:(lia))).
        lia.
Qed.

Lemma chars_utf8 : forall l, Forall scalar_value l -> chars (utf8 l) = l.
Proof.
  induction l as [|c l IH]; intros F; [reflexivity|]. inversion F as [|? ? F1 F2]; subst.
  cbn [utf8 fold_right]. rewrite chars_step by exact F1. f_equal. exact (IH F2).
Qed.

(** ** Solidity strings *)

Lemma ascii_cases : forall (P : ascii -> Prop),
  (forall n, (n < 256)%N -> P (ascii_of_N n)) -> forall a, P a.
Proof. intros P H a. rewrite <- (ascii_N_embedding a). apply H. apply N_ascii_bounded. Qed.

Lemma sol_body_char : forall c s v, sol_safe c -> sol_body s = Some v ->
  sol_body (unencode_char c ++ s) = Some (utf8_char c ++ v).
Proof.
  intros c s v S H. unfold sol_safe in S. unfold unencode_char, utf8_char.
  destruct S as [->|[->|[->|[(B & N1 & N2)|S]]]].
  - change (option_map (String.append (byte 9)) (sol_body s) = Some (byte 9 ++ v)). now rewrite H.
  - change (option_map (String.append (byte 10)) (sol_body s) = Some (byte 10 ++ v)). now rewrite H.
  - change (option_map (String.append (byte 13)) (sol_body s) = Some (byte 13 ++ v)). now rewrite H.
  - destruct (c <? 32)%N eqn:E.
    + apply N.ltb_lt in E.
      replace (c =? 8)%N with false by (symmetry; apply N.eqb_neq; lia).
      replace (c =? 9)%N with false by (symmetry; apply N.eqb_neq; lia).
      replace (c =? 10)%N with false by (symmetry; apply N.eqb_neq; lia).
      replace (c =? 11)%N with false by (symmetry; apply N.eqb_neq; lia).
      replace (c =? 12)%N with false by (symmetry; apply N.eqb_neq; lia).
      replace (c =? 13)%N with false by (symmetry; apply N.eqb_neq; lia).
      replace (c <? 128)%N with true by (symmetry; apply N.ltb_lt; lia).
      destruct (hex2_ok c) as (a & b & E2 & E3); [lia|]. rewrite E2.
      cbn [String.append sol_body]. rewrite E3, H. reflexivity.
    + apply N.ltb_ge in E.
      replace (c <? 127)%N with true by (symmetry; apply N.ltb_lt; lia).
      replace (c <? 128)%N with true by (symmetry; apply N.ltb_lt; lia).
      cbn [String.append sol_body byte].
      replace (Ascii.eqb (ascii_of_N c) """") with false.
      2:{ symmetry. apply Ascii.eqb_neq. intros Q. apply (f_equal N_of_ascii) in Q. rewrite N_byte in Q by lia. cbn in Q. lia. }
      replace (Ascii.eqb (ascii_of_N c) "\") with false.
      2:{ symmetry. apply Ascii.eqb_neq. intros Q. apply (f_equal N_of_ascii) in Q. rewrite N_byte in Q by lia. cbn in Q. lia. }
      unfold printable. rewrite N_byte by lia.
      replace (32 <=? c)%N with true by (symmetry; apply N.leb_le; lia).
      replace (c <=? 126)%N with true by (symmetry; apply N.leb_le; lia).
      cbn [andb]. rewrite H. reflexivity.
  - replace (c <? 32)%N with false by (symmetry; apply N.ltb_ge; lia).
    replace (c <? 127)%N with false by (symmetry; apply N.ltb_ge; lia).
    destruct (hex4_ok c) as (a & b & d & f & E2 & E3); [lia|]. rewrite E2.
    cbn [String.append sol_body]. rewrite E3, H. reflexivity.
Qed.

Lemma sol_safe_scalar : forall c, sol_safe c -> scalar_value c.
Proof. unfold sol_safe, scalar_value. intros c H. lia. Qed.

Lemma sol_string_back : forall l, Forall sol_safe l ->
  solidity_string (quoted (unencode (utf8 l))) = Some (utf8 l).
Proof.
  intros l F. unfold solidity_string, quoted. cbn [Ascii.eqb]. 
  unfold unencode. rewrite chars_utf8 by (eapply Forall_impl; [apply sol_safe_scalar|exact F]).
  cbn. induction F as [|c l S F IH]; [reflexivity|].
  cbn [map fold_right utf8]. rewrite app_assoc_s. apply sol_body_char; assumption.
Qed.

(** ** Texts printed as they are *)

Lemma py_plain_back : forall s, every_byte vy_safe s -> py_body """" (s ++ """") = Some s.
Proof.
  induction s as [|a s IH]; intros H; [reflexivity|].
  destruct H as ((H1 & H2 & H3 & H4) & H).
  cbn [String.append py_body].
  rewrite (proj2 (Ascii.eqb_neq _ _) H1), (proj2 (Ascii.eqb_neq _ _) H2), (proj2 (Ascii.eqb_neq _ _) H3), (proj2 (Ascii.eqb_neq _ _) H4).
  cbn [orb]. now rewrite (IH H).
Qed.

Lemma unicode_plain_back : forall s, every_byte vy_safe s -> unicode_body (s ++ """") = Some s.
Proof.
  induction s as [|a s IH]; intros H; [reflexivity|].
  destruct H as ((H1 & H2 & H3 & H4) & H).
  cbn [String.append unicode_body].
  rewrite (proj2 (Ascii.eqb_neq _ _) H1), (proj2 (Ascii.eqb_neq _ _) H2), (proj2 (Ascii.eqb_neq _ _) H3), (proj2 (Ascii.eqb_neq _ _) H4).
  cbn [orb]. now rewrite (IH H).
Qed.

(** ** Byte literals *)

Lemma hex_digit_ascii : forall n, (n < 16)%N -> is_cont_byte (hex_digit n) = false.
Proof.
  intros n H. assert (D : In n (map N.of_nat (seq 0 16))).
  { apply in_map_iff. exists (N.to_nat n). split; [lia|]. apply in_seq. lia. }
  cbn in D. repeat (destruct D as [<-|D]; [reflexivity|]). destruct D.
Qed.

Lemma bytes_back : forall bs, exists x, byte_pairs (hex_encode bs) = Some x /\ py_body "'" (x ++ "'") = Some bs.
Proof.
  induction bs as [|a bs (x & E1 & E2)].
  - exists "". split; reflexivity.
  - pose proof (N_ascii_bounded a) as B.
    assert (D : (N_of_ascii a / 16 < 16)%N) by (apply N.div_lt_upper_bound; lia).
    assert (M : (N_of_ascii a mod 16 < 16)%N) by (apply N.mod_lt; lia).
    cbn [hex_encode byte_pairs]. rewrite (hex_digit_ascii _ D).
    assert (C : match hex_encode bs with String d _ => is_cont_byte d | _ => false end = false).
    { destruct bs as [|b bs]; [reflexivity|]. cbn [hex_encode]. apply hex_digit_ascii.
      apply N.div_lt_upper_bound; [lia|]. apply N_ascii_bounded. }
    rewrite C, E1. cbn [orb option_map]. eexists. split; [reflexivity|].
    cbn [String.append py_body]. unfold hex2. rewrite !hex_value_digit by assumption.
    rewrite E2. cbn. rewrite <- N.div_mod'. now rewrite ascii_N_embedding.
Qed.

(** ** Integers *)

Lemma show_Z_int : forall z, show_Z z = NilZero.string_of_int (Z.to_int z).
Proof. destruct z; reflexivity. Qed.

Lemma decimal_back : forall z, read_decimal (show_Z z) = Some z.
Proof.
  intros z. unfold read_decimal. rewrite show_Z_int.
  assert (N1 : Z.to_int z <> Decimal.Pos Decimal.Nil /\ Z.to_int z <> Decimal.Neg Decimal.Nil).
  { destruct z as [|p|p]; cbn; split; try discriminate; intros Q; injection Q; apply Unsigned.to_uint_nonnil. }
  rewrite NilZero.isi by (try apply N1). now rewrite DecimalZ.of_to.
Qed.

(** ** Exactly which single characters survive *)

Lemma below : forall c n, (c < N.of_nat n)%N -> In c (map N.of_nat (seq 0 n)).
Proof. intros c n H. apply in_map_iff. exists (N.to_nat c). split; [lia|]. apply in_seq. lia. Qed.

Lemma small_chars : forall c, (c < 127)%N ->
  solidity_string (quoted (unencode (utf8 [c]))) = Some (utf8 [c]) -> sol_safe c.
Proof.
  intros c H. apply (below c 127) in H. revert c H. apply (proj1 (Forall_forall (fun c => solidity_string (quoted (unencode (utf8 [c]))) = Some (utf8 [c]) -> sol_safe c) _)).
  cbn [seq map N.of_nat Pos.of_succ_nat Pos.succ].
  repeat (constructor; [intros E; first [discriminate E|unfold sol_safe; clear E; lia]|]). constructor.
Qed.

Lemma hex2_short : forall n, (16 <= n < 256)%N -> exists a b, hex_N n = String a (String b "").
Proof. intros n H. destruct (hex2_ok n H) as (a & b & E & _). now exists a, b. Qed.

Lemma hex3_short : forall n, (256 <= n < 4096)%N -> exists a b c, hex_N n = String a (String b (String c "")).
Proof.
  intros n H. unfold hex_N.
  assert (H1 : (16 <= n / 16 < 256)%N)
    by (split; [apply N.div_le_lower_bound; lia|apply N.div_lt_upper_bound; lia]).
  assert (H2 : (n / 16 / 16 < 16)%N) by (apply N.div_lt_upper_bound; lia).
  rewrite hex_N_step by lia. rewrite hex_N_step by lia. rewrite hex_N_last by lia.
  eexists _, _, _. reflexivity.
Qed.

Lemma hex_long : forall n, (65536 <= n < 1114112)%N -> exists a b c d e s, hex_N n = String a (String b (String c (String d (String e s)))).
Proof.
  intros n H. unfold hex_N.
  assert (H1 : (4096 <= n / 16)%N) by (apply N.div_le_lower_bound; lia).
  assert (H2 : (256 <= n / 16 / 16)%N) by (apply N.div_le_lower_bound; lia).
  assert (H3 : (16 <= n / 16 / 16 / 16)%N) by (apply N.div_le_lower_bound; lia).
  rewrite hex_N_step by lia. rewrite hex_N_step by lia. rewrite hex_N_step by lia. rewrite hex_N_step by lia.
  set (k := (n / 16 / 16 / 16 / 16)%N). destruct (N.lt_ge_cases k 16) as [K|K].
  - rewrite hex_N_last by exact K. eexists _, _, _, _, _, _. reflexivity.
  - assert (K2 : (k / 16 < 16)%N).
    { unfold k. repeat (apply N.div_lt_upper_bound; [lia|]). lia. }
    rewrite hex_N_step by exact K. rewrite hex_N_last by exact K2. eexists _, _, _, _, _, _. reflexivity.
Qed.

Lemma hex_value_bound : forall a v, hex_value a = Some v -> (v < 16)%N.
Proof.
  intros a v. unfold hex_value. generalize (N_of_ascii a). intros n.
  destruct (_ && _)%bool eqn:E1; [intros [= <-]; apply andb_prop in E1; rewrite !N.leb_le in E1; lia|].
  destruct ((97 <=? n) && (n <=? 102))%N%bool eqn:E2; [intros [= <-]; apply andb_prop in E2; rewrite !N.leb_le in E2; lia|].
  destruct ((65 <=? n) && (n <=? 70))%N%bool eqn:E3; [intros [= <-]; apply andb_prop in E3; rewrite !N.leb_le in E3; lia|].
  discriminate.
Qed.

Lemma hex4_bound : forall a b c d v, hex4 a b c d = Some v -> (v < 65536)%N.
Proof.
  intros a b c d v. unfold hex4, hex2.
  destruct (hex_value a) as [x1|] eqn:E1; [|discriminate]. destruct (hex_value b) as [x2|] eqn:E2; [|discriminate].
  destruct (hex_value c) as [x3|] eqn:E3; [|discriminate]. destruct (hex_value d) as [x4|] eqn:E4; [|discriminate].
  intros [= <-].
  apply hex_value_bound in E1. apply hex_value_bound in E2. apply hex_value_bound in E3. apply hex_value_bound in E4. lia.
Qed.

Definition first_byte (s : string) : N := match s with String a _ => N_of_ascii a | EmptyString => 0%N end.

Lemma first_byte_small : forall v s, (v < 65536)%N -> (first_byte (utf8_char v ++ s) < 240)%N.
Proof.
  intros v s H. unfold utf8_char.
  destruct (v <? 128)%N eqn:E1; [apply N.ltb_lt in E1; cbn [byte String.append first_byte]; rewrite N_byte; lia|].
  destruct (v <? 2048)%N eqn:E2.
  { apply N.ltb_lt in E2. cbn [byte String.append first_byte].
    assert (v / 64 < 32)%N by (apply N.div_lt_upper_bound; lia). rewrite N_byte; lia. }
  replace (v <? 65536)%N with true by (symmetry; apply N.ltb_lt; exact H).
  cbn [byte String.append first_byte].
  assert (v / 4096 < 16)%N by (apply N.div_lt_upper_bound; lia). rewrite N_byte; lia.
Qed.

Lemma first_byte_large : forall c s, (65536 <= c < 1114112)%N -> (240 <= first_byte (utf8_char c ++ s))%N.
Proof.
  intros c s H. unfold utf8_char.
  replace (c <? 128)%N with false by (symmetry; apply N.ltb_ge; lia).
  replace (c <? 2048)%N with false by (symmetry; apply N.ltb_ge; lia).
  replace (c <? 65536)%N with false by (symmetry; apply N.ltb_ge; lia).
  cbn [byte String.append first_byte].
  assert (c / 262144 < 8)%N by (apply N.div_lt_upper_bound; lia).
  rewrite N_byte by lia. apply N.le_add_r.
Qed.

Lemma sol_body_u : forall s, sol_body (String "\" (String "u" s)) =
  match s with
  | String a (String b (String d (String f s3))) =>
      match hex4 a b d f with
      | Some v => option_map (String.append (utf8_char v)) (sol_body s3)
      | None => None
      end
  | _ => None
  end.
Proof. reflexivity. Qed.

Lemma quote_no_hex : hex_value """" = None.
Proof. reflexivity. Qed.

Lemma sol_char_iff : forall c, scalar_value c ->
  (solidity_string (quoted (unencode (utf8 [c]))) = Some (utf8 [c]) <-> sol_safe c).
Proof.
  intros c V. split.
  - destruct (N.lt_ge_cases c 127) as [C|C]; [apply small_chars; exact C|].
    intros H. unfold unencode in H. rewrite chars_utf8 in H by (constructor; [exact V|constructor]).
    cbn [map fold_right] in H. rewrite app_nil_r_s in H.
    unfold unencode_char in H.
    replace (c <? 32)%N with false in H by (symmetry; apply N.ltb_ge; lia).
    replace (c <? 127)%N with false in H by (symmetry; apply N.ltb_ge; lia).
    unfold quoted, solidity_string in H. cbn [String.append] in H.
    change (Ascii.eqb """" """") with true in H. cbv iota in H. rewrite sol_body_u in H.
    unfold scalar_value in V.
    destruct (N.lt_ge_cases c 256) as [C2|C2].
    { destruct (hex2_short c) as (x & y & E); [lia|]. rewrite E in H. discriminate H. }
    destruct (N.lt_ge_cases c 4096) as [C3|C3].
    { destruct (hex3_short c) as (x & y & z & E); [lia|]. rewrite E in H. cbn [String.append] in H.
      unfold hex4, hex2 in H. rewrite quote_no_hex in H.
      destruct (hex_value x), (hex_value y), (hex_value z); discriminate H. }
    destruct (N.lt_ge_cases c 65536) as [C4|C4]; [unfold sol_safe; lia|].
    exfalso. destruct (hex_long c) as (a & b & d & e & f & s & E); [lia|]. rewrite E in H.
    cbn [String.append] in H. destruct (hex4 a b d e) as [v|] eqn:E4; [|discriminate].
    apply hex4_bound in E4. destruct (sol_body (String f (s ++ """"))) as [w|]; [|discriminate].
    cbn [option_map] in H. apply (f_equal (fun o => match o with Some t => first_byte t | None => 0%N end)) in H.
    cbn [utf8 fold_right] in H.
    pose proof (first_byte_small v w E4). pose proof (first_byte_large c "" ltac:(lia)).
    change (fold_right (fun c s => utf8_char c ++ s) "" [c]) with (utf8_char c ++ "") in H. lia.
  - intros S. apply sol_string_back. now constructor.
Qed.

Lemma vy_char_iff : forall a, vyper_string (quoted (String a "")) = Some (String a "") <-> vy_safe a.
Proof.
  intros a. split.
  - intros H. unfold vy_safe. repeat split; intros ->; discriminate H.
  - intros S. apply py_plain_back. split; [exact S|exact I].
Qed.
