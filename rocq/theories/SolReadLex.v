(** The tokens of the text of a Solidity program: words and literals. *)
From Coq Require Import String Ascii List NArith ZArith Bool Lia.
From Verif Require Import Base Json SpecLiteral SpecVyText SpecSolText SpecSolRead LitFacts PathFacts.
From Verif Require SpecVyRead VyReadLex VyReadToks.
Import ListNotations.
Open Scope string_scope.
Open Scope list_scope.

(** ** Steps of the lexer *)

(** Not a comment in asterisks, which might go over lines. *)
Definition on_line (s : string) : bool := match s with String c r => negb (Ascii.eqb c "/" && starts_with "*" r) | EmptyString => true end.

Inductive lx : string -> list token -> string -> Prop :=
| lx_stop : forall s, lx s [] s
| lx_step : forall s t r ts r2, next s = Some (t, r) -> on_line s = true -> lx r ts r2 -> lx s (given t ts) r2.

Lemma lx_app : forall s a s1, lx s a s1 -> forall b s2, lx s1 b s2 -> lx s (a ++ b) s2.
Proof.
  induction 1 as [|s t r ts r2 E O L IH]; intros b s3 M; [exact M|].
  replace (given t ts ++ b) with (given t (ts ++ b)) by (destruct t; reflexivity).
  exact (lx_step _ _ _ _ _ E O (IH _ _ M)).
Qed.

Lemma lx_lex : forall s ts, lx s ts "" -> exists enough, forall fuel, enough <= fuel -> lex fuel s = Some ts.
Proof.
  intros s ts L. remember "" as e eqn:Q. revert Q.
  induction L as [s|s t r ts r2 E O L IH]; intros Q; subst.
  - exists 1. intros [|f] H; [lia|reflexivity].
  - destruct (IH eq_refl) as (n & Hn). exists (Datatypes.S n). intros [|f] H; [lia|]. cbn [lex].
    destruct s as [|c s]; [discriminate E|]. rewrite E, (Hn f) by lia. reflexivity.
Qed.

Definition next_is (p : ascii -> bool) (s : string) : bool := match s with EmptyString => true | String c _ => p c end.

(** What may come right after a name, and right after a number. *)
Definition tightn (c : ascii) : bool :=
  Ascii.eqb c " " || Ascii.eqb c "010" || Ascii.eqb c ")" || Ascii.eqb c "]" || Ascii.eqb c "}" || Ascii.eqb c "," || Ascii.eqb c ":" ||
  Ascii.eqb c ";" || Ascii.eqb c "[" || Ascii.eqb c "(" || Ascii.eqb c "{" || Ascii.eqb c "+" || Ascii.eqb c "-".
Definition tight (c : ascii) : bool := tightn c || Ascii.eqb c ".".
Definition any (c : ascii) : bool := true.

(** The text [s], before anything that begins with [p], gives [ts]. *)
Definition lxs (p : ascii -> bool) (s : string) (ts : list token) : Prop :=
  forall rest, next_is p rest = true -> lx (String.append s rest) ts rest.

Lemma lxs_weak : forall (p q : ascii -> bool) s ts, (forall c, q c = true -> p c = true) -> lxs p s ts -> lxs q s ts.
Proof. intros p q s ts I L rest H. apply L. destruct rest; [reflexivity|]. exact (I _ H). Qed.

Lemma any_lxs : forall p s ts, lxs any s ts -> lxs p s ts.
Proof. intros p s ts L. exact (lxs_weak any p s ts (fun _ _ => eq_refl) L). Qed.

Lemma tightn_tight : forall c, tightn c = true -> tight c = true.
Proof. intros c H. unfold tight. now rewrite H. Qed.
Lemma tight_lxs : forall s ts, lxs tight s ts -> lxs tightn s ts.
Proof. intros s ts. apply lxs_weak. exact tightn_tight. Qed.

Definition headed (p : ascii -> bool) (s : string) : Prop := exists c r, s = String c r /\ p c = true.
(** Nothing, or something that begins with [p]. *)
Definition soft (p : ascii -> bool) (s : string) : Prop := next_is p s = true.

Lemma headed_app : forall p s r, headed p s -> headed p (String.append s r).
Proof. intros p s r (c & t & -> & H). exists c, (String.append t r). split; [reflexivity|exact H]. Qed.
Lemma headed_soft : forall p s r, soft p s -> headed p r -> headed p (String.append s r).
Proof. intros p [|c s] r H R; [exact R|]. exists c, (String.append s r). split; [reflexivity|exact H]. Qed.
Lemma soft_app : forall p s r, soft p s -> soft p r -> soft p (String.append s r).
Proof. intros p [|c s] r H R; [exact R|]. exact H. Qed.
Lemma soft_headed : forall p s, headed p s -> soft p s.
Proof. intros p s (c & r & -> & H). exact H. Qed.

Lemma lxs_soft : forall p s1 t1 s2 t2, lxs p s1 t1 -> lxs p s2 t2 -> soft p s2 -> lxs p (String.append s1 s2) (t1 ++ t2).
Proof.
  intros p s1 t1 s2 t2 A B H rest R. rewrite append_assoc. eapply lx_app; [|exact (B rest R)].
  apply A. destruct s2; [exact R|exact H].
Qed.
Lemma lxs_headed : forall p q s1 t1 s2 t2, lxs p s1 t1 -> lxs q s2 t2 -> headed p s2 -> lxs q (String.append s1 s2) (t1 ++ t2).
Proof.
  intros p q s1 t1 s2 t2 A B (c & r & -> & H) rest R. rewrite append_assoc. eapply lx_app; [|exact (B rest R)].
  apply A. exact H.
Qed.
Lemma lxs_lit : forall q s1 t1 s2 t2, lxs any s1 t1 -> lxs q s2 t2 -> lxs q (String.append s1 s2) (t1 ++ t2).
Proof.
  intros q s1 t1 s2 t2 A B rest R. rewrite append_assoc. eapply lx_app; [|exact (B rest R)].
  apply A. destruct (String.append s2 rest); reflexivity.
Qed.

Lemma lxs_nil : forall p, lxs p "" [].
Proof. intros p rest _. constructor. Qed.
Lemma lxs_eq : forall p s ts ts', lxs p s ts -> ts = ts' -> lxs p s ts'.
Proof. intros; subst; assumption. Qed.

Lemma append_nil_s : forall s, String.append s "" = s.
Proof. exact VyReadLex.append_nil_s. Qed.

Lemma lx_tok : forall s t r ts r2, next s = Some (Some t, r) -> lx r ts r2 -> lx s (t :: ts) r2.
Proof.
  intros s t r ts r2 E L. refine (lx_step _ _ _ _ _ E _ L). destruct s as [|c s]; [reflexivity|]. cbn [on_line].
  destruct (Ascii.eqb c "/" && starts_with "*" s) eqn:Q; [|reflexivity]. exfalso. apply andb_true_iff in Q. destruct Q as (Q1 & Q2).
  apply Ascii.eqb_eq in Q1. subst c. destruct s as [|d s]; [discriminate Q2|]. apply Ascii.eqb_eq in Q2. subst d.
  unfold next in E. cbn [Ascii.eqb Bool.eqb orb andb starts_with] in E. destruct (after_comment _); discriminate E.
Qed.
Lemma lx_skip : forall s r ts r2, next s = Some (None, r) -> on_line s = true -> lx r ts r2 -> lx s ts r2.
Proof. intros s r ts r2 E O L. exact (lx_step _ _ _ _ _ E O L). Qed.

(** A fixed text. *)
Ltac lit := let rest := fresh "rest" in
  intros rest _; cbn [String.append];
  repeat first [ refine (lx_stop _) | eapply lx_tok; [cbn; reflexivity|] | eapply lx_skip; [cbn; reflexivity|reflexivity|] ].

Lemma lit_test : lxs any "if(" [KWord "if"; KSym "("].
Proof. lit. Qed.
Lemma lit_test2 : lxs any " >>>= " [KSym ">>>="].
Proof. lit. Qed.
Lemma lit_test3 : lxs any "++" [KSym "++"].
Proof. lit. Qed.
Lemma lit_test4 : lxs any " / " [KSym "/"].
Proof. lit. Qed.
Lemma lit_test5 : lxs any ";" [KSym ";"].
Proof. lit. Qed.

Lemma spaces_lexed : forall n, lxs any (spaces n) [].
Proof.
  intros n. induction n as [|n IH]; [apply lxs_nil|]. intros rest H. cbn [spaces String.append].
  eapply lx_skip; [reflexivity|reflexivity|]. exact (IH rest H).
Qed.
Lemma margin_lexed : forall tab n, lxs any (margin tab n) [].
Proof. intros. apply spaces_lexed. Qed.
Lemma newline_lexed : lxs any newline [].
Proof. unfold newline. lit. Qed.

(** ** Characters *)

Lemma imp_chars : forall p q : ascii -> bool, forallb (fun c => negb (p c) || q c) (map ascii_of_nat (seq 0 256)) = true ->
  forall c, p c = true -> q c = true.
Proof. exact VyReadLex.imp_chars. Qed.
Ltac chars := apply imp_chars; vm_compute; reflexivity.

Lemma next_is_weak : forall (p q : ascii -> bool) s, (forall c, p c = true -> q c = true) -> next_is p s = true -> next_is q s = true.
Proof. intros p q [|c s] H; cbn; [reflexivity|apply H]. Qed.

Lemma span_more : forall p s a b rest, span p s = (a, b) -> (b = "" -> next_is (fun c => negb (p c)) rest = true) ->
  span p (String.append s rest) = (a, String.append b rest).
Proof.
  intros p. induction s as [|c s IH]; intros a b rest H N; cbn in H.
  - injection H as <- <-. specialize (N eq_refl). destruct rest as [|c r]; [reflexivity|]. cbn in *. now destruct (p c).
  - cbn [String.append]. change (span p (String c (String.append s rest))) with
      (if p c then let (a, b) := span p (String.append s rest) in (String c a, b) else ("", String c (String.append s rest))).
    destruct (p c).
    + change (SpecVyRead.span p s) with (span p s) in H. destruct (span p s) as (x & y) eqn:E. injection H as <- <-. now rewrite (IH x y rest eq_refl N).
    + injection H as <- <-. reflexivity.
Qed.

Lemma span_every : forall p s, every p s = true -> span p s = (s, "").
Proof.
  induction s as [|c s IH]; intros H; [reflexivity|]. cbn in H. apply andb_true_iff in H. destruct H as (Hc & H).
  change (span p (String c s)) with (if p c then let (a, b) := span p s in (String c a, b) else ("", String c s)). now rewrite Hc, (IH H).
Qed.

Lemma span_parts : forall p s a b, span p s = (a, b) -> s = String.append a b.
Proof. intros p s a b H. exact (proj1 (VyReadLex.span_parts p s a b H)). Qed.

(** ** Words *)

Lemma letter_first : forall c r, letter c = true ->
  next (String c r) =
    let (a, b) := span wordchar (String c r) in
    if (a =?s "hex") && starts_with """" b then quoted (fun a => option_map KHex (hex_pairs (unquote a))) (drop 1 b)
    else if (a =?s "unicode") && starts_with """" b then quoted (fun a => option_map KUnicode (unicode_body a)) (drop 1 b)
    else Some (Some (KWord a), b).
Proof.
  intros c r L. unfold next.
  assert (Q : forall c, letter c = true -> negb (Ascii.eqb c " " || Ascii.eqb c "010" || Ascii.eqb c "013" || Ascii.eqb c "009") &&
     negb (Ascii.eqb c "/") && negb (Ascii.eqb c """") = true) by chars.
  specialize (Q c L). apply andb_true_iff in Q. destruct Q as (Q & Q3). apply andb_true_iff in Q. destruct Q as (Q1 & Q2).
  apply negb_true_iff in Q1, Q2, Q3. now rewrite Q1, Q2, Q3, L.
Qed.

Lemma wordy_lexed : forall x, wordy x = true -> lxs tight x [KWord x].
Proof.
  intros [|c x] H rest R; [discriminate|]. cbn in H. apply andb_true_iff in H. destruct H as (Hc & Hx).
  cbn [String.append]. eapply lx_tok; [|constructor]. rewrite letter_first by exact Hc.
  assert (E : span wordchar (String c x) = (String c x, "")).
  { apply span_every. cbn. unfold wordchar at 1. now rewrite Hc. }
  change (String c (String.append x rest)) with (String.append (String c x) rest).
  rewrite (span_more _ _ _ _ _ E).
  - cbn [String.append]. replace (starts_with """" rest) with false; [now rewrite !andb_false_r|].
    destruct rest as [|d r]; [reflexivity|]. cbn. symmetry. apply negb_true_iff. cbn in R. revert d R. chars.
  - intros _. revert R. apply next_is_weak. chars.
Qed.

Lemma name_wordy : forall x, name x = true -> wordy x = true.
Proof. intros x H. unfold name in H. now apply andb_true_iff in H. Qed.
Lemma name_free : forall x, name x = true -> reserved x = false.
Proof. intros x H. unfold name in H. apply andb_true_iff in H. now apply negb_true_iff. Qed.

Lemma smem_In : forall s l, smem s l = true <-> In s l.
Proof. exact VyReadLex.smem_true_In. Qed.

Lemma all_wordy : forall l, forallb wordy l = true -> forall x, smem x l = true -> wordy x = true.
Proof. intros l H x Hx. rewrite forallb_forall in H. apply H. now apply smem_In. Qed.

Lemma elementary_wordy : forall x, elementary x = true -> wordy x = true.
Proof. apply all_wordy. vm_compute. reflexivity. Qed.

(** ** Numbers *)

Lemma fraction_more : forall s a b rest, fraction s = (a, b) ->
  (s = "" -> next_is (fun c => negb (Ascii.eqb c ".")) rest = true) -> s <> "." ->
  (b = "" -> next_is (fun c => negb (numchar c)) rest = true) ->
  fraction (String.append s rest) = (a, String.append b rest).
Proof.
  intros [|p [|c r]] a b rest H N1 N2 N3.
  - cbn in H. injection H as <- <-. specialize (N1 eq_refl). cbn [String.append]. destruct rest as [|c [|d r]]; try reflexivity.
    cbn in *. apply negb_true_iff in N1. now rewrite N1.
  - cbn in H. injection H as <- <-. cbn [String.append]. destruct rest as [|d r]; [reflexivity|]. cbn.
    destruct (Ascii.eqb p ".") eqn:E; [|reflexivity]. apply Ascii.eqb_eq in E. subst. congruence.
  - cbn [String.append fraction] in *. destruct (Ascii.eqb p "." && digit c) eqn:E.
    + destruct (span numchar (String c r)) as (x & y) eqn:S. injection H as <- <-.
      change (String c (String.append r rest)) with (String.append (String c r) rest). now rewrite (span_more _ _ _ _ rest S N3).
    + injection H as <- <-. reflexivity.
Qed.

Lemma exponent_all : forall s a rest, exponent s = (a, "") ->
  next_is (fun c => negb (numchar c || Ascii.eqb c "e" || Ascii.eqb c "E")) rest = true ->
  exponent (String.append s rest) = (a, rest).
Proof.
  intros s a rest H R.
  assert (R1 : next_is (fun c => negb (numchar c)) rest = true).
  { revert R. apply next_is_weak. chars. }
  destruct s as [|e [|c r]].
  - injection H as <-. cbn [String.append]. destruct rest as [|e [|c r]]; try reflexivity. cbn in R. unfold exponent.
    destruct (Ascii.eqb e "e"); [rewrite orb_true_r in R; discriminate|]. destruct (Ascii.eqb e "E"); [rewrite orb_true_r in R; discriminate|]. reflexivity.
  - discriminate.
  - cbn [String.append]. unfold exponent in *. destruct (Ascii.eqb e "e" || Ascii.eqb e "E"); [|discriminate].
    destruct (digit c).
    + destruct (span numchar (String c r)) as (x & y) eqn:S. injection H as <- ->.
      change (String c (String.append r rest)) with (String.append (String c r) rest). now rewrite (span_more _ _ _ _ rest S (fun _ => R1)).
    + destruct r as [|c2 r]; [discriminate|]. cbn [String.append]. destruct (Ascii.eqb c "-" && digit c2); [|discriminate].
      destruct (span numchar (String c2 r)) as (x & y) eqn:S. injection H as <- ->.
      change (String c2 (String.append r rest)) with (String.append (String c2 r) rest). now rewrite (span_more _ _ _ _ rest S (fun _ => R1)).
Qed.

Lemma append_empty : forall a b, String.append a b = "" -> a = "" /\ b = "".
Proof. intros [|c a] b H; [split; [reflexivity|exact H]|discriminate]. Qed.

Lemma prefix0x : forall s, String.prefix "0x" s = true -> exists r, s = String "0" (String "x" r).
Proof.
  intros [|c [|d r]] H; cbn [String.prefix] in H; try discriminate.
  - destruct (ascii_dec "0" c); discriminate.
  - destruct (ascii_dec "0" c) as [<-|]; [|discriminate]. destruct (ascii_dec "x" d) as [<-|]; [|discriminate]. now exists r.
Qed.

Lemma span_head : forall p s a c b, span p s = (a, String c b) -> p c = false.
Proof.
  intros p. induction s as [|d s IH]; intros a c b H; [discriminate|].
  change (span p (String d s)) with (if p d then let (a, b) := span p s in (String d a, b) else ("", String d s)) in H.
  destruct (p d) eqn:E.
  - destruct (span p s) as (x & y) eqn:Q. injection H as <- ->. exact (IH _ _ _ eq_refl).
  - injection H as _ <- _. exact E.
Qed.

Lemma number_parts : forall s a b, number s = (a, b) -> s = String.append a b.
Proof.
  intros s a b H. unfold number in H. destruct (String.prefix "0x" s) eqn:P.
  - destruct (prefix0x s P) as (r & ->). cbn [drop] in H. change (drop 2 (String "0" (String "x" r))) with r in H.
    destruct (span _ r) as (x & y) eqn:S. injection H as <- <-. apply span_parts in S. now rewrite S.
  - destruct (span numchar s) as (x & y) eqn:S. destruct (fraction y) as (c & d) eqn:F. destruct (exponent d) as (e & f) eqn:G.
    injection H as <- <-. apply span_parts in S. subst s. rewrite !append_assoc. f_equal.
    assert (Fd : y = String.append c d).
    { unfold fraction in F. destruct y as [|p [|q r]]; try (injection F as <- <-; reflexivity).
      destruct (_ && _); [|injection F as <- <-; reflexivity]. destruct (span numchar (String q r)) as (u & v) eqn:U.
      injection F as <- <-. apply span_parts in U. cbn. now rewrite U. }
    rewrite Fd. f_equal. unfold exponent in G. destruct d as [|p [|q r]]; try (injection G as <- <-; reflexivity).
    destruct (_ || _); [|injection G as <- <-; reflexivity]. destruct (digit q).
    + destruct (span numchar (String q r)) as (u & v) eqn:U. injection G as <- <-. apply span_parts in U. cbn. now rewrite U.
    + destruct r as [|q2 r]; [injection G as <- <-; reflexivity|]. destruct (_ && _); [|injection G as <- <-; reflexivity].
      destruct (span numchar (String q2 r)) as (u & v) eqn:U. injection G as <- <-. apply span_parts in U. cbn. now rewrite U.
Qed.

Lemma number_more : forall s rest, number s = (s, "") -> s <> "" ->
  next_is (fun c => negb (numchar c || hexdigit c || Ascii.eqb c "x" || Ascii.eqb c "." || Ascii.eqb c "E")) rest = true ->
  number (String.append s rest) = (s, rest).
Proof.
  intros s rest H Ne R. unfold number in *. destruct (String.prefix "0x" s) eqn:P.
  - destruct (prefix0x s P) as (r & ->). change (drop 2 (String "0" (String "x" r))) with r in H.
    cbn [String.append]. replace (String.prefix "0x" (String "0" (String "x" (String.append r rest)))) with true
      by (destruct (String.append r rest); reflexivity).
    change (drop 2 (String "0" (String "x" (String.append r rest)))) with (String.append r rest).
    destruct (span _ r) as (x & y) eqn:S. injection H as E ->. rewrite (span_more _ _ _ _ rest S).
    + subst x. reflexivity.
    + intros _. revert R. apply next_is_weak. chars.
  - replace (String.prefix "0x" (String.append s rest)) with false.
    + destruct (span numchar s) as (x & y) eqn:S. destruct (fraction y) as (c & d) eqn:F. destruct (exponent d) as (e & f) eqn:G.
      injection H as E ->.
      assert (R1 : next_is (fun c => negb (numchar c)) rest = true) by (revert R; apply next_is_weak; chars).
      rewrite (span_more _ _ _ _ rest S (fun _ => R1)).
      rewrite (fraction_more y c d rest F).
      * rewrite (exponent_all d e rest G); [now rewrite E|]. revert R. apply next_is_weak. chars.
      * intros _. revert R. apply next_is_weak. chars.
      * intros ->. cbn in F. injection F as <- <-. cbn in G. discriminate.
      * intros _. exact R1.
    + symmetry. destruct s as [|a [|b s]]; [congruence| |].
      * cbn [String.append String.prefix]. destruct (ascii_dec "0" a); [|reflexivity]. destruct rest as [|d r]; [reflexivity|].
        cbn [String.prefix]. destruct (ascii_dec "x" d) as [<-|]; [discriminate R|reflexivity].
      * cbn [String.append String.prefix] in *. destruct (ascii_dec "0" a); [|reflexivity].
        destruct (ascii_dec "x" b) as [<-|]; [|reflexivity]. destruct s; discriminate P.
Qed.

Lemma number_first : forall c r, digit c = true \/ (c = "."%char /\ exists d t, r = String d t /\ digit d = true) ->
  next (String c r) = let (a, b) := number (String c r) in Some (Some (KNum a), b).
Proof.
  intros c r H. unfold next.
  assert (Q : Ascii.eqb c " " || Ascii.eqb c "010" || Ascii.eqb c "013" || Ascii.eqb c "009" = false /\ Ascii.eqb c "/" = false /\
     Ascii.eqb c """" = false /\ letter c = false).
  { destruct H as [H|(-> & _)]; [|repeat split; reflexivity].
    assert (Q : forall c, digit c = true -> negb (Ascii.eqb c " " || Ascii.eqb c "010" || Ascii.eqb c "013" || Ascii.eqb c "009") &&
      negb (Ascii.eqb c "/") && negb (Ascii.eqb c """") && negb (letter c) = true) by chars.
    specialize (Q c H). rewrite !andb_true_iff, !negb_true_iff in Q. tauto. }
  destruct Q as (-> & -> & -> & ->). cbn [andb].
  destruct H as [->|(-> & d & t & -> & Hd)]; [reflexivity|]. cbn. now rewrite Hd, orb_true_r.
Qed.

Lemma numeral_whole : forall s, numeral s = true -> number s = (s, "") /\ s <> "" /\
  exists c r, s = String c r /\ (digit c = true \/ (c = "."%char /\ exists d t, r = String d t /\ digit d = true)).
Proof.
  intros [|c r] H; [discriminate|]. unfold numeral in H. apply andb_true_iff in H. destruct H as (Hc & H). apply String.eqb_eq in H.
  destruct (number (String c r)) as (a & b) eqn:E. cbn [snd] in H. subst b. pose proof (number_parts _ _ _ E) as P. rewrite append_nil_s in P. subst a.
  split; [reflexivity|]. split; [discriminate|]. exists c, r. split; [reflexivity|].
  destruct (digit c) eqn:D; [now left|]. right. cbn in Hc. apply Ascii.eqb_eq in Hc. subst c. split; [reflexivity|].
  unfold number in E. cbn [String.prefix] in E. destruct (ascii_dec "0" "."); [discriminate|].
  change (span numchar (String "." r)) with ("", String "." r) in E. cbv beta iota zeta in E. unfold fraction in E.
  destruct r as [|d t]; [discriminate|]. exists d, t. split; [reflexivity|].
  change (Ascii.eqb "." ".") with true in E. cbn [andb] in E. destruct (digit d); [reflexivity|].
  exfalso. cbn in E. discriminate.
Qed.

Lemma numeral_lexed : forall s, numeral s = true -> lxs tightn s [KNum s].
Proof.
  intros s H rest R. destruct (numeral_whole s H) as (N & Ne & c & r & E & Hc). eapply lx_tok; [|constructor].
  assert (X : number (String.append s rest) = (s, rest)).
  { apply number_more; [exact N|exact Ne|]. revert R. apply next_is_weak. chars. }
  revert X. rewrite E. cbn [String.append]. intros X. rewrite number_first; [now rewrite X|].
  destruct Hc as [Hc|(-> & d & t & -> & Hd)]; [now left|right]. split; [reflexivity|]. exists d, (String.append t rest). split; [reflexivity|exact Hd].
Qed.

(** The pieces of a version, one right after the other. *)
Lemma digits_numchar : forall s, every digit s = true -> every numchar s = true.
Proof.
  induction s as [|c s IH]; [reflexivity|]. intros H. cbn in H. apply andb_true_iff in H. destruct H as (Hc & H). cbn.
  unfold numchar at 1. now rewrite Hc, (IH H).
Qed.

Definition piece_end (c : ascii) : bool := Ascii.eqb c " " || Ascii.eqb c ";" || Ascii.eqb c ".".

Lemma exponent_none : forall s, next_is (fun c => negb (Ascii.eqb c "e" || Ascii.eqb c "E")) s = true -> exponent s = ("", s).
Proof. intros [|e [|c r]] H; try reflexivity. cbn in *. apply negb_true_iff in H. now rewrite H. Qed.

Lemma dot_lexed : forall s, dot_digits s = true -> lxs piece_end s [KNum s].
Proof.
  intros [|c s] H rest R; [discriminate|]. unfold dot_digits in H. apply andb_true_iff in H. destruct H as (Hc & H). apply Ascii.eqb_eq in Hc. subst c.
  unfold digits in H. apply andb_true_iff in H. destruct H as (Ne & H). destruct s as [|d s]; [discriminate|].
  pose proof H as Hd. cbn in Hd. apply andb_true_iff in Hd. destruct Hd as (Hd & _).
  eapply lx_tok; [|constructor]. cbn [String.append]. rewrite number_first by (right; split; [reflexivity|]; now exists d, (String.append s rest)).
  unfold number. replace (String.prefix "0x" (String "." (String d (String.append s rest)))) with false by reflexivity.
  change (span numchar (String "." (String d (String.append s rest)))) with ("", String "." (String d (String.append s rest))).
  cbv beta iota zeta. unfold fraction. rewrite Hd. change (Ascii.eqb "." ".") with true. cbn [andb].
  change (String d (String.append s rest)) with (String.append (String d s) rest).
  rewrite (span_more numchar (String d s) (String d s) "" rest).
  - cbn [String.append]. rewrite exponent_none; [cbn; now rewrite append_nil_s|]. revert R. apply next_is_weak. chars.
  - apply span_every. now apply digits_numchar.
  - intros _. revert R. apply next_is_weak. chars.
Qed.

Lemma two_parts : forall s, two_digits s = true -> exists a b, s = String.append a b /\ digits a = true /\ dot_digits b = true.
Proof.
  intros s H. unfold two_digits in H. destruct (span digit s) as (a & b) eqn:E. apply andb_true_iff in H. exists a, b. split; [exact (span_parts _ _ _ _ E)|exact H].
Qed.

Lemma two_lexed : forall s, two_digits s = true -> lxs piece_end s [KNum s].
Proof.
  intros s H rest R. destruct (two_parts s H) as (a & b & -> & Ha & Hb).
  unfold digits in Ha. apply andb_true_iff in Ha. destruct Ha as (Na & Ha). destruct a as [|c a]; [discriminate|].
  pose proof Ha as Hc. cbn in Hc. apply andb_true_iff in Hc. destruct Hc as (Hc & Ha').
  destruct b as [|p b]; [discriminate|]. unfold dot_digits in Hb. apply andb_true_iff in Hb. destruct Hb as (Hp & Hb). apply Ascii.eqb_eq in Hp. subst p.
  unfold digits in Hb. apply andb_true_iff in Hb. destruct Hb as (Ne & Hb). destruct b as [|d b]; [discriminate|].
  pose proof Hb as Hd. cbn in Hd. apply andb_true_iff in Hd. destruct Hd as (Hd & _).
  eapply lx_tok; [|constructor]. rewrite append_assoc.
  change (String.append (String c a) (String.append (String "." (String d b)) rest)) with (String c (String.append a (String "." (String.append (String d b) rest)))).
  rewrite number_first by (left; exact Hc). unfold number.
  replace (String.prefix "0x" (String c (String.append a (String "." (String.append (String d b) rest))))) with false.
  - change (String c (String.append a (String "." (String.append (String d b) rest)))) with (String.append (String c a) (String "." (String.append (String d b) rest))).
    rewrite (span_more numchar (String c a) (String c a) "" _); [|apply span_every; now apply digits_numchar|reflexivity].
    cbv beta iota zeta. cbn [String.append]. unfold fraction. rewrite Hd. change (Ascii.eqb "." ".") with true. cbn [andb].
    change (String d (String.append b rest)) with (String.append (String d b) rest).
    rewrite (span_more numchar (String d b) (String d b) "" rest).
    + cbn [String.append]. rewrite exponent_none; [cbn; now rewrite append_nil_s|]. revert R. apply next_is_weak. chars.
    + apply span_every. now apply digits_numchar.
    + intros _. revert R. apply next_is_weak. chars.
  - symmetry. cbn [String.prefix]. destruct (ascii_dec "0" c); [|reflexivity]. destruct a as [|c2 a]; [reflexivity|].
    cbn [String.append String.prefix every] in *. destruct (ascii_dec "x" c2) as [<-|]; [discriminate Ha'|reflexivity].
Qed.

Lemma digits_lexed : forall s, digits s = true -> lxs (fun c => piece_end c && negb (Ascii.eqb c ".")) s [KNum s].
Proof.
  intros s H rest R. unfold digits in H. apply andb_true_iff in H. destruct H as (Ne & H). destruct s as [|c s]; [discriminate|].
  pose proof H as Hc. cbn in Hc. apply andb_true_iff in Hc. destruct Hc as (Hc & Hs).
  eapply lx_tok; [|constructor]. cbn [String.append]. rewrite number_first by (left; exact Hc).
  change (String c (String.append s rest)) with (String.append (String c s) rest).
  rewrite number_more; [reflexivity| |discriminate|revert R; apply next_is_weak; chars].
  unfold number. replace (String.prefix "0x" (String c s)) with false.
  - rewrite span_every by now apply digits_numchar. cbn. now rewrite append_nil_s.
  - symmetry. cbn [String.prefix]. destruct (ascii_dec "0" c); [|reflexivity]. destruct s as [|c2 s]; [reflexivity|].
    cbn [String.prefix every] in *. destruct (ascii_dec "x" c2) as [<-|]; [discriminate Hs|reflexivity].
Qed.

(** ** Texts *)

Definition esc (c : ascii) : string :=
  if (Ascii.eqb c """" || Ascii.eqb c "\")%char then String "\" (String c "")
  else if ((32 <=? N_of_ascii c) && (N_of_ascii c <? 127))%N then String c ""
  else String.append "\x" (hex_encode (String c "")).
Definition esc_unicode (c : ascii) : string :=
  if (Ascii.eqb c """" || Ascii.eqb c "\")%char then String "\" (String c "")
  else if (N_of_ascii c <? 32)%N then String.append "\x" (hex_encode (String c ""))
  else String c "".

Ltac compute_esc :=
  repeat match goal with
  | |- context [esc ?a] => let v := eval vm_compute in (esc a) in change (esc a) with v
  | |- context [esc_unicode ?a] => let v := eval vm_compute in (esc_unicode a) in change (esc_unicode a) with v
  | |- context [hex_encode (String ?a "")] => let v := eval vm_compute in (hex_encode (String a "")) in change (hex_encode (String a "")) with v
  | |- context [(32 <=? N_of_ascii ?a)%N] => let v := eval vm_compute in (32 <=? N_of_ascii a)%N in change (32 <=? N_of_ascii a)%N with v
  end.
Ltac each_char c := destruct c as [[] [] [] [] [] [] [] []]; compute_esc; try discriminate.

Lemma esc_quote : forall c t, upto_quote """" (String.append (esc c) t) = option_map (fun x => (String.append (esc c) (fst x), snd x)) (upto_quote """" t).
Proof.
  intros c t. each_char c; cbn; change (SpecVyRead.upto_quote """" t) with (upto_quote """" t); destruct (upto_quote """" t) as [(a, b)|]; reflexivity.
Qed.
Lemma esc_body : forall c t, sol_body (String.append (esc c) t) = option_map (String c) (sol_body t).
Proof. intros c t. each_char c; cbn; destruct (sol_body t); reflexivity. Qed.
Lemma esc_unicode_quote : forall c t, (32 <=? N_of_ascii c)%N = true ->
  upto_quote """" (String.append (esc_unicode c) t) = option_map (fun x => (String.append (esc_unicode c) (fst x), snd x)) (upto_quote """" t).
Proof.
  intros c t. each_char c; intros _; cbn; change (SpecVyRead.upto_quote """" t) with (upto_quote """" t); destruct (upto_quote """" t) as [(a, b)|]; reflexivity.
Qed.
Lemma esc_unicode_body : forall c t, (32 <=? N_of_ascii c)%N = true -> unicode_body (String.append (esc_unicode c) t) = option_map (String c) (unicode_body t).
Proof. intros c t. each_char c; intros _; cbn; destruct (unicode_body t); reflexivity. Qed.

Lemma escaped_cons : forall c s, escaped (String c s) = String.append (esc c) (escaped s).
Proof. reflexivity. Qed.
Lemma escaped_unicode_cons : forall c s, escaped_unicode (String c s) = String.append (esc_unicode c) (escaped_unicode s).
Proof. reflexivity. Qed.

Lemma escaped_back : forall s rest, upto_quote """" (String.append (escaped s) (String """" rest)) = Some (String.append (escaped s) """", rest) /\
  sol_body (String.append (escaped s) """") = Some s.
Proof.
  induction s as [|c s IH]; intros rest; [split; reflexivity|]. destruct (IH rest) as (A & B).
  rewrite escaped_cons, !append_assoc. rewrite esc_quote, A, esc_body, B. split; reflexivity.
Qed.
Lemma escaped_unicode_back : forall s rest, every (fun c => (32 <=? N_of_ascii c)%N) s = true ->
  upto_quote """" (String.append (escaped_unicode s) (String """" rest)) = Some (String.append (escaped_unicode s) """", rest) /\
  unicode_body (String.append (escaped_unicode s) """") = Some s.
Proof.
  induction s as [|c s IH]; intros rest H; [split; reflexivity|]. cbn in H. apply andb_true_iff in H. destruct H as (Hc & H).
  destruct (IH rest H) as (A & B).
  rewrite escaped_unicode_cons, !append_assoc. rewrite esc_unicode_quote, A, esc_unicode_body, B by exact Hc. split; reflexivity.
Qed.

Lemma text_lexed : forall s, lxs any (cat [""""; escaped s; """"]) [KText s].
Proof.
  intros s rest _. eapply lx_tok; [|constructor]. unfold cat. cbn [fold_right String.append]. rewrite append_assoc.
  destruct (escaped_back s rest) as (A & B). unfold next. cbn [Ascii.eqb Bool.eqb orb andb starts_with]. unfold quoted. cbn [String.append]. now rewrite A, B.
Qed.

Lemma hex_encode_cons : forall c s, hex_encode (String c s) = String.append (hex_encode (String c "")) (hex_encode s).
Proof. intros. reflexivity. Qed.

Lemma hex_back : forall s rest, upto_quote """" (String.append (hex_encode s) (String """" rest)) = Some (String.append (hex_encode s) """", rest) /\
  unquote (String.append (hex_encode s) """") = hex_encode s /\ hex_pairs (hex_encode s) = Some s.
Proof.
  induction s as [|c s IH]; intros rest; [repeat split; reflexivity|]. destruct (IH rest) as (A & B & C).
  rewrite hex_encode_cons, !append_assoc.
  assert (Q : forall t, upto_quote """" (String.append (hex_encode (String c "")) t) =
    option_map (fun x => (String.append (hex_encode (String c "")) (fst x), snd x)) (upto_quote """" t)).
  { intros t. clear. each_char c; cbn; change (SpecVyRead.upto_quote """" t) with (upto_quote """" t); destruct (upto_quote """" t) as [(a, b)|]; reflexivity. }
  rewrite Q, A. split; [reflexivity|]. clear Q A. split.
  - destruct (String.append (hex_encode s) """") as [|d t] eqn:E; [destruct (hex_encode s); discriminate|].
    rewrite <- B. clear. each_char c; reflexivity.
  - revert C. generalize (hex_encode s). clear. intros t C. each_char c; cbn; rewrite C; reflexivity.
Qed.

Lemma hex_lexed : forall s, lxs any (cat ["hex"""; hex_encode s; """"]) [KHex s].
Proof.
  intros s rest _. eapply lx_tok; [|constructor]. unfold cat. cbn [fold_right String.append]. rewrite append_assoc.
  destruct (hex_back s rest) as (A & B & C). rewrite letter_first by reflexivity.
  change (span wordchar (String "h" (String "e" (String "x" (String """" (String.append (hex_encode s) (String.append """" rest)))))))
    with ("hex", String """" (String.append (hex_encode s) (String.append """" rest))).
  cbn [starts_with Ascii.eqb Bool.eqb andb String.eqb]. unfold quoted.
  change (drop 1 (String """" (String.append (hex_encode s) (String.append """" rest)))) with (String.append (hex_encode s) (String.append """" rest)).
  cbn [String.append]. now rewrite A, B, C.
Qed.

Lemma unicode_lexed : forall s, every (fun c => (32 <=? N_of_ascii c)%N) s = true -> lxs any (cat ["unicode"""; escaped_unicode s; """"]) [KUnicode s].
Proof.
  intros s H rest _. eapply lx_tok; [|constructor]. unfold cat. cbn [fold_right String.append]. rewrite append_assoc.
  destruct (escaped_unicode_back s rest H) as (A & B). rewrite letter_first by reflexivity.
  change (span wordchar (String "u" (String "n" (String "i" (String "c" (String "o" (String "d" (String "e" (String """" (String.append (escaped_unicode s) (String.append """" rest)))))))))))
    with ("unicode", String """" (String.append (escaped_unicode s) (String.append """" rest))).
  cbn [starts_with Ascii.eqb Bool.eqb andb String.eqb]. unfold quoted.
  change (drop 1 (String """" (String.append (escaped_unicode s) (String.append """" rest)))) with (String.append (escaped_unicode s) (String.append """" rest)).
  cbn [String.append]. now rewrite A, B.
Qed.

Lemma plain_escaped : forall s, every plain_char s = true -> escaped s = s.
Proof.
  induction s as [|c s IH]; intros H; [reflexivity|]. cbn in H. apply andb_true_iff in H. destruct H as (Hc & H).
  rewrite escaped_cons, (IH H). replace (esc c) with (String c ""); [reflexivity|].
  unfold plain_char in Hc. rewrite !andb_true_iff, !negb_true_iff in Hc. destruct Hc as ((C1 & C2) & C3). unfold esc. rewrite C2, C3. cbn [orb].
  now rewrite !(proj2 (andb_true_iff _ _) C1).
Qed.
