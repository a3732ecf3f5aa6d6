(** The tokens of the text of a Vyper program. *)
From Coq Require Import String Ascii List NArith ZArith Bool Lia DecimalString.
From Verif Require Import Base Json SpecLiteral SpecVyText SpecVyRead LitFacts PathFacts VyText VyTextStmt.
Import ListNotations.
Open Scope string_scope.
Open Scope list_scope.

(** ** Steps of the lexer *)

Inductive lx : nat -> string -> list tok -> nat -> string -> Prop :=
| lx_stop : forall d s, lx d s [] d s
| lx_step : forall d s t d1 r ts d2 r2, next d s = Some (t, d1, r) -> lx d1 r ts d2 r2 -> lx d s (given t ts) d2 r2.

Lemma lx_app : forall d s a d1 s1, lx d s a d1 s1 -> forall b d2 s2, lx d1 s1 b d2 s2 -> lx d s (a ++ b) d2 s2.
Proof.
  induction 1 as [|d s t d1 r ts d2 r2 E L IH]; intros b d3 s3 M; [exact M|].
  replace (given t ts ++ b) with (given t (ts ++ b)) by (destruct t; reflexivity).
  exact (lx_step _ _ _ _ _ _ _ _ E (IH _ _ _ M)).
Qed.

Lemma lx_lex : forall d s ts d', lx d s ts d' "" -> exists enough, forall fuel, enough <= fuel -> lex fuel d s = Some ts.
Proof.
  intros d s ts d' L. remember "" as e eqn:Q. revert Q.
  induction L as [d s|d s t d1 r ts d2 r2 E L IH]; intros Q; subst.
  - exists 1. intros [|f] H; [lia|reflexivity].
  - destruct (IH eq_refl) as (n & Hn). exists (S n). intros [|f] H; [lia|]. cbn [lex].
    destruct s as [|c s]; [discriminate E|]. rewrite E, (Hn f) by lia. reflexivity.
Qed.

Definition next_is (p : ascii -> bool) (s : string) : bool := match s with EmptyString => true | String c _ => p c end.

Definition delim (c : ascii) : bool :=
  Ascii.eqb c " " || Ascii.eqb c "010" || Ascii.eqb c ")" || Ascii.eqb c "]" || Ascii.eqb c "}" || Ascii.eqb c "," || Ascii.eqb c ":" || Ascii.eqb c "=".
Definition tight (c : ascii) : bool := delim c || Ascii.eqb c "." || Ascii.eqb c "[" || Ascii.eqb c "(".
Definition any (c : ascii) : bool := true.

(** The text [s], before anything that begins with [p], gives [ts]. *)
Definition lxs (p : ascii -> bool) (d : nat) (s : string) (ts : list tok) (d' : nat) : Prop :=
  forall rest, next_is p rest = true -> lx d (String.append s rest) ts d' rest.

Lemma lxs_weak : forall (p q : ascii -> bool) d s ts d', (forall c, q c = true -> p c = true) -> lxs p d s ts d' -> lxs q d s ts d'.
Proof. intros p q d s ts d' I L rest H. apply L. destruct rest; [reflexivity|]. exact (I _ H). Qed.

Lemma any_lxs : forall p d s ts d', lxs any d s ts d' -> lxs p d s ts d'.
Proof. intros p d s ts d' L. exact (lxs_weak any p d s ts d' (fun _ _ => eq_refl) L). Qed.

Lemma delim_tight : forall d s ts d', lxs tight d s ts d' -> lxs delim d s ts d'.
Proof. intros d s ts d'. apply lxs_weak. intros c H. unfold tight. now rewrite H. Qed.

Definition headed (p : ascii -> bool) (s : string) : Prop := exists c r, s = String c r /\ p c = true.

Lemma lxs_cat : forall p q d s1 t1 d1 s2 t2 d2, lxs p d s1 t1 d1 -> lxs q d1 s2 t2 d2 ->
  (headed p s2 \/ (s2 = "" /\ forall c, q c = true -> p c = true) \/ p = any) -> lxs q d (String.append s1 s2) (t1 ++ t2) d2.
Proof.
  intros p q d s1 t1 d1 s2 t2 d2 A B H rest R. rewrite append_assoc. eapply lx_app; [|exact (B rest R)].
  apply A. destruct H as [(c & r & -> & Hc)|[(-> & I)| ->]].
  - exact Hc.
  - cbn. destruct rest; [reflexivity|]. exact (I _ R).
  - destruct s2; [destruct rest|]; reflexivity.
Qed.

Lemma lxs_nil : forall p d, lxs p d "" [] d.
Proof. intros p d rest _. constructor. Qed.

Lemma append_nil_s : forall s, String.append s "" = s.
Proof. induction s; cbn; congruence. Qed.

Lemma lx_tok : forall d s t d1 r ts d2 r2, next d s = Some (Some t, d1, r) -> lx d1 r ts d2 r2 -> lx d s (t :: ts) d2 r2.
Proof. intros d s t d1 r ts d2 r2 E L. exact (lx_step _ _ _ _ _ _ _ _ E L). Qed.
Lemma lx_skip : forall d s d1 r ts d2 r2, next d s = Some (None, d1, r) -> lx d1 r ts d2 r2 -> lx d s ts d2 r2.
Proof. intros d s d1 r ts d2 r2 E L. exact (lx_step _ _ _ _ _ _ _ _ E L). Qed.

(** A fixed text. *)
Ltac lit := let rest := fresh "rest" in
  intros rest _; cbn [String.append];
  repeat first [ refine (lx_stop _ _) | eapply lx_tok; [cbn; reflexivity|] | eapply lx_skip; [cbn; reflexivity|] ].

Lemma lit_test : forall d, lxs any d "if " [TWord "if"] d.
Proof. intros d. lit. Qed.
Lemma lit_test2 : forall d, lxs any d ": (" [TSym ":"; TSym "("] (S d).
Proof. intros d. lit. Qed.

(** ** Words and literals *)

Lemma char_cases : forall (P : ascii -> bool), forallb P (map (fun n => ascii_of_nat n) (seq 0 256)) = true -> forall c, P c = true.
Proof.
  intros P H c. rewrite forallb_forall in H. apply H. apply in_map_iff. exists (nat_of_ascii c).
  split; [apply ascii_nat_embedding|]. apply in_seq. pose proof (nat_ascii_bounded c). lia.
Qed.

Ltac chars c := generalize c; refine (char_cases _ _); vm_compute; reflexivity.

Lemma letter_first : forall c r d, letter c = true -> Ascii.eqb c "b" && next_is (Ascii.eqb "'") r && negb (r =?s "") = false ->
  next d (String c r) = let (a, b) := span wordchar (String c r) in Some (Some (TWord a), d, b).
Proof.
  intros c r d L B. unfold next.
  assert (Q : negb (letter c) || negb (Ascii.eqb c " ") && negb (Ascii.eqb c "#") && negb (Ascii.eqb c "010") && negb (Ascii.eqb c """") = true)
    by chars c.
  rewrite L in Q. cbn in Q. destruct (Ascii.eqb c " "); [discriminate|]. destruct (Ascii.eqb c "#"); [discriminate|].
  destruct (Ascii.eqb c "010"); [discriminate|]. destruct (Ascii.eqb c """"); [discriminate|].
  replace (String.prefix "b'" (String c r)) with false; [now rewrite L|].
  symmetry. cbn [String.prefix]. destruct (Ascii.ascii_dec "b" c) as [<-|]; [|reflexivity].
  destruct r as [|c2 r]; [reflexivity|]. cbn in B. cbn [String.prefix]. destruct (Ascii.ascii_dec "'" c2) as [<-|]; [discriminate B|reflexivity].
Qed.

Lemma span_all : forall p s rest, every p s = true -> next_is (fun c => negb (p c)) rest = true ->
  span p (String.append s rest) = (s, rest).
Proof.
  induction s as [|c s IH]; intros rest E N.
  - destruct rest as [|c r]; [reflexivity|]. cbn in *. now destruct (p c).
  - cbn in E. apply andb_true_iff in E. destruct E as (Ec & E). cbn. now rewrite Ec, (IH rest E N).
Qed.

Lemma next_is_weak : forall (p q : ascii -> bool) s, (forall c, p c = true -> q c = true) -> next_is p s = true -> next_is q s = true.
Proof. intros p q [|c s] H; cbn; [reflexivity|apply H]. Qed.

Lemma imp_chars : forall p q : ascii -> bool, forallb (fun c => negb (p c) || q c) (map ascii_of_nat (seq 0 256)) = true ->
  forall c, p c = true -> q c = true.
Proof. intros p q H c Hc. pose proof (char_cases _ H c) as K. cbn in K. rewrite Hc in K. exact K. Qed.

Lemma ident_lexed : forall x d, ident x = true -> lxs tight d x [TWord x] d.
Proof.
  intros [|c x] d H rest R; [discriminate|]. cbn in H. apply andb_true_iff in H. destruct H as (Hc & Hx).
  cbn [String.append]. eapply lx_tok; [|constructor]. rewrite letter_first; [|exact Hc|].
  - change (String c (String.append x rest)) with (String.append (String c x) rest). rewrite span_all; [reflexivity| |].
    + cbn. unfold wordchar at 1. now rewrite Hc.
    + revert R. apply next_is_weak. apply imp_chars. vm_compute. reflexivity.
  - destruct (Ascii.eqb c "b") eqn:Eb; [|reflexivity]. destruct x as [|c2 x].
    + destruct rest as [|c2 rest]; [reflexivity|]. cbn [String.append next_is] in *. replace (Ascii.eqb "'" c2) with false; [reflexivity|].
      symmetry. apply negb_true_iff. revert c2 R. apply imp_chars. vm_compute. reflexivity.
    + cbn [String.append next_is every] in *. apply andb_true_iff in Hx. destruct Hx as (H2 & _). replace (Ascii.eqb "'" c2) with false; [reflexivity|].
      symmetry. apply negb_true_iff. revert c2 H2. apply imp_chars. vm_compute. reflexivity.
Qed.

Lemma name_ident : forall x, name x = true -> ident x = true.
Proof. intros x H. unfold name in H. apply andb_true_iff in H. destruct H as (H & _). now apply andb_true_iff in H. Qed.

Lemma digit_first : forall c r d, digit c = true ->
  next d (String c r) = let (a, b) := number (String c r) in Some (Some (TNum a), d, b).
Proof.
  intros c r d L. unfold next.
  assert (Q : negb (digit c) || negb (Ascii.eqb c " ") && negb (Ascii.eqb c "#") && negb (Ascii.eqb c "010") && negb (Ascii.eqb c """")
              && negb (letter c) && negb (Ascii.eqb "b" c) = true)
    by chars c.
  rewrite L in Q. cbn in Q. destruct (Ascii.eqb c " "); [discriminate|]. destruct (Ascii.eqb c "#"); [discriminate|].
  destruct (Ascii.eqb c "010"); [discriminate|]. destruct (Ascii.eqb c """"); [discriminate|].
  destruct (letter c); [discriminate|].
  replace (String.prefix "b'" (String c r)) with false; [now rewrite L|].
  symmetry. cbn [String.prefix]. destruct (Ascii.ascii_dec "b" c) as [<-|]; [discriminate|reflexivity].
Qed.

Lemma number_digits : forall s rest, digits s = true -> next_is delim rest = true -> number (String.append s rest) = (s, rest).
Proof.
  intros s rest D R. unfold digits in D. apply andb_true_iff in D. destruct D as (D1 & D2). unfold number.
  replace (String.prefix "0x" (String.append s rest)) with false.
  - rewrite span_all; [|exact D2|].
    + destruct rest as [|c [|c2 rest]]; try reflexivity. cbn in R.
      replace (Ascii.eqb c ".") with false; [reflexivity|].
      symmetry. apply negb_true_iff. revert c R. apply imp_chars. vm_compute. reflexivity.
    + revert R. apply next_is_weak. apply imp_chars. vm_compute. reflexivity.
  - symmetry. destruct s as [|c s]; [discriminate|]. cbn [String.append String.prefix].
    destruct (Ascii.ascii_dec "0" c) as [<-|]; [|reflexivity].
    assert (X : forall c, digit c || delim c = true -> negb (Ascii.eqb "x" c) = true) by (apply imp_chars; vm_compute; reflexivity).
    assert (Y : next_is (fun c => digit c || delim c) (String.append s rest) = true).
    { destruct s as [|c s]; cbn [String.append].
      - revert R. apply next_is_weak. intros c ->. apply orb_true_r.
      - cbn [every] in D2. apply andb_true_iff in D2. destruct D2 as (_ & D2). apply andb_true_iff in D2. destruct D2 as (D2 & _).
        cbn [next_is]. now rewrite D2. }
    destruct (String.append s rest) as [|c r]; [reflexivity|]. cbn [next_is] in Y. apply X in Y. cbn [String.prefix].
    destruct (Ascii.ascii_dec "x" c) as [<-|]; [discriminate Y|reflexivity].
Qed.

Lemma digits_lexed : forall s d, digits s = true -> lxs delim d s [TNum s] d.
Proof.
  intros s d D rest R. eapply lx_tok; [|constructor].
  pose proof (number_digits s rest D R) as E. unfold digits in D. apply andb_true_iff in D. destruct D as (D1 & D2).
  destruct s as [|c s]; [discriminate|]. cbn in D2. apply andb_true_iff in D2. destruct D2 as (Hc & _).
  cbn [String.append] in *. rewrite digit_first by exact Hc. now rewrite E.
Qed.

Lemma span_parts : forall p s a b, span p s = (a, b) -> s = String.append a b /\ every p a = true.
Proof.
  induction s as [|c s IH]; intros a b H; cbn in H; [injection H as <- <-; now split|].
  destruct (p c) eqn:E.
  - destruct (span p s) as (x & y) eqn:Q. injection H as <- <-. destruct (IH _ _ eq_refl) as (-> & V). cbn. now rewrite E.
  - injection H as <- <-. now split.
Qed.

Lemma decimal_parts : forall s, decimal s = true -> exists a b, s = String.append a (String "." b) /\ digits a = true /\ digits b = true.
Proof.
  intros s H. unfold decimal in H. destruct (span digit s) as (a & b) eqn:E. destruct (span_parts _ _ _ _ E) as (-> & _).
  destruct b as [|p r]; [discriminate|]. apply andb_true_iff in H. destruct H as (H & Hr).
  apply andb_true_iff in H. destruct H as (Ha & Hp). apply Ascii.eqb_eq in Hp. subst p. now exists a, r.
Qed.

Lemma decimal_lexed : forall s d, decimal s = true -> lxs delim d s [TNum s] d.
Proof.
  intros s d D rest R. destruct (decimal_parts s D) as (a & b & -> & Ha & Hb). eapply lx_tok; [|constructor].
  rewrite append_assoc. cbn [String.append].
  assert (E : number (String.append a (String "." (String.append b rest))) = (String.append a (String "." b), rest)).
  { unfold digits in Ha, Hb. apply andb_true_iff in Ha, Hb. destruct Ha as (A1 & A2), Hb as (B1 & B2). unfold number.
    replace (String.prefix "0x" (String.append a (String "." (String.append b rest)))) with false.
    - rewrite span_all; [|exact A2|reflexivity]. destruct b as [|c b]; [discriminate|]. cbn [String.append]. cbn in B2.
      apply andb_true_iff in B2. destruct B2 as (Hc & B2). rewrite Hc. cbn [Ascii.eqb Bool.eqb andb].
      change (String c (String.append b rest)) with (String.append (String c b) rest). rewrite span_all; [reflexivity| |].
      + cbn. now rewrite Hc.
      + revert R. apply next_is_weak. apply imp_chars. vm_compute. reflexivity.
    - symmetry. destruct a as [|c a]; [discriminate|]. cbn [String.append String.prefix].
      destruct (Ascii.ascii_dec "0" c) as [<-|]; [|reflexivity]. destruct a as [|c a]; [reflexivity|].
      cbn [every String.append String.prefix] in *. apply andb_true_iff in A2. destruct A2 as (_ & A2).
      apply andb_true_iff in A2. destruct A2 as (Hc & _). destruct (Ascii.ascii_dec "x" c) as [<-|]; [discriminate Hc|reflexivity]. }
  unfold digits in Ha. apply andb_true_iff in Ha. destruct Ha as (D1 & D2).
  destruct a as [|c a]; [discriminate|]. cbn in D2. apply andb_true_iff in D2. destruct D2 as (Hc & _).
  cbn [String.append] in *. rewrite digit_first by exact Hc. now rewrite E.
Qed.

Lemma hex_parts : forall s, hexadecimal s = true -> exists b, s = String "0" (String "x" b) /\ every hexdigit b = true.
Proof.
  intros s H. unfold hexadecimal in H. apply andb_true_iff in H. destruct H as (P & E).
  destruct s as [|c [|c2 s]]; cbn [String.prefix] in P; try discriminate.
  - destruct (Ascii.ascii_dec "0" c); discriminate.
  - destruct (Ascii.ascii_dec "0" c) as [<-|]; [|discriminate]. destruct (Ascii.ascii_dec "x" c2) as [<-|]; [|discriminate].
    exists s. split; [reflexivity|exact E].
Qed.

Lemma hex_lexed : forall s d, hexadecimal s = true -> lxs tight d s [TNum s] d.
Proof.
  intros s d D rest R. destruct (hex_parts s D) as (b & -> & Hb). eapply lx_tok; [|constructor].
  cbn [String.append]. rewrite digit_first by reflexivity. unfold number.
  replace (String.prefix "0x" (String "0" (String "x" (String.append b rest)))) with true
    by (destruct (String.append b rest); reflexivity).
  cbn [drop].
  rewrite span_all; [reflexivity|exact Hb|]. revert R. apply next_is_weak. apply imp_chars. vm_compute. reflexivity.
Qed.

Lemma text_lexed : forall s d, every unescaped s = true -> lxs any d (cat [""""; s; """"]) [TText s] d.
Proof.
  intros s d H rest _. eapply lx_tok; [|constructor]. unfold cat. cbn [fold_right String.append].
  rewrite append_assoc. cbn [String.append]. unfold next. cbn [Ascii.eqb Bool.eqb].
  assert (U : upto_quote """" (String.append s (String """" rest)) = Some (String.append s """", rest)).
  { clear d. induction s as [|c s IH]; [reflexivity|]. cbn in H. apply andb_true_iff in H. destruct H as (Hc & H).
    unfold unescaped in Hc. apply negb_true_iff in Hc. repeat rewrite orb_false_iff in Hc. destruct Hc as (((H1 & H2) & H3) & _).
    cbn [String.append upto_quote]. now rewrite H1, H2, H3, (IH H). }
  rewrite U. replace (py_body """" (String.append s """")) with (Some s); [reflexivity|]. symmetry. apply py_plain_back.
  clear U d. induction s as [|c s IH]; [exact I|]. cbn in H. apply andb_true_iff in H. destruct H as (Hc & H).
  unfold unescaped in Hc. apply negb_true_iff in Hc. repeat rewrite orb_false_iff in Hc. destruct Hc as (((H1 & H2) & H3) & H4).
  apply Ascii.eqb_neq in H1, H2, H3, H4. split; [|exact (IH H)]. repeat split; assumption.
Qed.

Lemma hex_digit_plain : forall n, (n < 16)%N ->
  hex_digit n <> "'"%char /\ hex_digit n <> "\"%char /\ hex_digit n <> "010"%char.
Proof.
  intros n H. assert (D : In n (map N.of_nat (seq 0 16))).
  { apply in_map_iff. exists (N.to_nat n). split; [lia|]. apply in_seq. lia. }
  cbn in D. repeat (destruct D as [<-|D]; [repeat split; discriminate|]). destruct D.
Qed.

Definition escaped (bs : string) : string := cat (map (fun a => String.append "\x" (hex_encode (String a ""))) (list_ascii_of_string bs)).

Lemma data_lexed : forall bs d, lxs any d (cat ["b'"; escaped bs; "'"]) [TData bs] d.
Proof.
  intros bs d rest _. eapply lx_tok; [|constructor]. unfold cat at 1. cbn [fold_right String.append].
  rewrite append_assoc. cbn [String.append]. 
  assert (U : upto_quote "'" (String.append (escaped bs) (String "'" rest)) = Some (String.append (escaped bs) "'", rest) /\
              py_body "'" (String.append (escaped bs) "'") = Some bs).
  { clear d. induction bs as [|a bs (IH1 & IH2)]; [split; reflexivity|].
    pose proof (N_ascii_bounded a) as B.
    assert (D : (N_of_ascii a / 16 < 16)%N) by (apply N.div_lt_upper_bound; lia).
    assert (M : (N_of_ascii a mod 16 < 16)%N) by (apply N.mod_lt; lia).
    destruct (hex_digit_plain _ D) as (D1 & D2 & D3), (hex_digit_plain _ M) as (M1 & M2 & M3).
    change (escaped (String a bs)) with (String "\" (String "x" (String (hex_digit (N_of_ascii a / 16)) (String (hex_digit (N_of_ascii a mod 16)) (escaped bs))))).
    cbn [String.append upto_quote py_body].
    rewrite (proj2 (Ascii.eqb_neq _ _) D1), (proj2 (Ascii.eqb_neq _ _) D2), (proj2 (Ascii.eqb_neq _ _) M1), (proj2 (Ascii.eqb_neq _ _) M2),
      (proj2 (Ascii.eqb_neq _ _) D3), (proj2 (Ascii.eqb_neq _ _) M3).
    rewrite IH1. unfold hex2. rewrite !hex_value_digit by assumption. split; [reflexivity|].
    rewrite IH2. cbn. rewrite <- N.div_mod'. now rewrite ascii_N_embedding. }
  destruct U as (U1 & U2). unfold next. cbn [Ascii.eqb Bool.eqb].
  replace (String.prefix "b'" (String "b" (String "'" (String.append (escaped bs) (String "'" rest))))) with true
    by (destruct (String.append (escaped bs) (String "'" rest)); reflexivity).
  cbn [drop]. now rewrite U1, U2.
Qed.

Lemma all_digits_every : forall s, all_digits s = true -> every digit s = true.
Proof.
  induction s as [|c s IH]; [reflexivity|]. intros H. cbn in H. apply andb_true_iff in H. destruct H as (Hc & H). cbn.
  rewrite (IH H), andb_true_r. revert Hc. revert c. apply imp_chars. vm_compute. reflexivity.
Qed.

Lemma show_digits : forall n, digits (show_N n) = true.
Proof.
  intros n. unfold digits. rewrite (all_digits_every _ (show_N_digits n)), andb_true_r. apply negb_true_iff.
  apply String.eqb_neq. apply show_N_nonempty.
Qed.

Definition int_tokens (z : Z) : list tok :=
  match z with Zneg p => [TSym "-"; TNum (show_N (Npos p))] | Z0 => [TNum (show_N 0)] | Zpos p => [TNum (show_N (Npos p))] end.

Lemma smem_true_In : forall s l, smem s l = true <-> In s l.
Proof.
  intros s l. induction l as [|x l IH]; simpl; [split; [discriminate|tauto]|].
  destruct (String.eqb_spec s x) as [->|E]; [tauto|]. rewrite IH. split; [auto|intros [->|H]; congruence].
Qed.

(** A symbol that is not the beginning of a longer one. *)
Lemma sign_first : forall c r d, Ascii.eqb ">" c = false -> Ascii.eqb "=" c = false ->
  next d (String "-" (String c r)) = Some (Some (TSym "-"), d, String c r).
Proof.
  intros c r d H1 H2. apply Ascii.eqb_neq in H1, H2.
  assert (E : symbol (String "-" (String c r)) = Some ("-", String c r)).
  { unfold symbol.
    replace (smem (take 3 (String "-" (String c r))) symbols3) with false
      by (cbn [take]; destruct r; reflexivity).
    replace (smem (take 2 (String "-" (String c r))) symbols2) with false; [reflexivity|].
    symmetry. apply not_true_iff_false. intros Q. apply smem_true_In in Q. cbn [take] in Q.
    repeat (destruct Q as [Q|Q]; [try discriminate Q; injection Q; intros; subst; congruence|]). destruct Q. }
  unfold next. cbn [Ascii.eqb Bool.eqb letter digit].
  change (String.prefix "b'" (String "-" (String c r))) with false.
  change (letter "-") with false. change (digit "-") with false. cbn match. now rewrite E.
Qed.

Lemma equal_first : forall c r d, Ascii.eqb "=" c = false ->
  next d (String "=" (String c r)) = Some (Some (TSym "="), d, String c r).
Proof.
  intros c r d H2. apply Ascii.eqb_neq in H2.
  assert (E : symbol (String "=" (String c r)) = Some ("=", String c r)).
  { unfold symbol.
    replace (smem (take 3 (String "=" (String c r))) symbols3) with false
      by (cbn [take]; destruct r; reflexivity).
    replace (smem (take 2 (String "=" (String c r))) symbols2) with false; [reflexivity|].
    symmetry. apply not_true_iff_false. intros Q. apply smem_true_In in Q. cbn [take] in Q.
    repeat (destruct Q as [Q|Q]; [try discriminate Q; injection Q; intros; subst; congruence|]). destruct Q. }
  unfold next. cbn [Ascii.eqb Bool.eqb letter digit].
  change (String.prefix "b'" (String "=" (String c r))) with false.
  change (letter "=") with false. change (digit "=") with false. cbn match. now rewrite E.
Qed.

Lemma int_lexed : forall z d, lxs delim d (show_Z z) (int_tokens z) d.
Proof.
  intros [|p|p] d; try (apply digits_lexed, show_digits). intros rest R. cbn [show_Z String.append int_tokens].
  eapply lx_tok; [|exact (digits_lexed _ d (show_digits _) rest R)].
  pose proof (show_digits (Npos p)) as D. unfold digits in D. apply andb_true_iff in D. destruct D as (D1 & D2).
  destruct (show_N (Npos p)) as [|c s]; [discriminate|]. cbn in D2. apply andb_true_iff in D2. destruct D2 as (Hc & _).
  cbn [String.append]. generalize (String.append s rest). intros r.
  assert (Q : forall c, digit c = true -> negb (Ascii.eqb ">" c) && negb (Ascii.eqb "=" c) = true)
    by (apply imp_chars; vm_compute; reflexivity).
  specialize (Q c Hc). apply andb_true_iff in Q. destruct Q as (Q1 & Q2). apply negb_true_iff in Q1, Q2.
  apply sign_first; assumption.
Qed.
