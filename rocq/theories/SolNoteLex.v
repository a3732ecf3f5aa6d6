(** Lines that hold nothing or a comment do not change the tokens of a Solidity text. *)
From Coq Require Import String Ascii List NArith ZArith Bool Lia.
From Verif Require Import Base Json SpecLiteral SpecSolText SpecSolRead LitFacts PathFacts SolReadLex.
From Verif Require SpecVyText SpecVyRead VyReadLex VyReadNote.
Import ListNotations.
Open Scope string_scope.
Open Scope list_scope.

Definition not_nl (a : ascii) : bool := negb (Ascii.eqb a "010").

(** Nothing, or a comment up to the end. *)
Definition remark (s : string) : bool := match s with EmptyString => true | String c r => Ascii.eqb c "/" && starts_with "/" r end.
(** Blanks, and then that. *)
Definition ignorable (s : string) : bool := every not_nl s && remark (snd (span (Ascii.eqb " ") s)).

(** Some lines like that are added. *)
Inductive adds (s : string) : string -> Prop :=
| adds_none : adds s s
| adds_line : forall A C B, adds s (String.append A (String "010" B)) -> ignorable C = true ->
    adds s (String.append A (String "010" (String.append C (String "010" B)))).

Lemma adds_trans : forall a b c, adds a b -> adds b c -> adds a c.
Proof. intros a b c H K. induction K; [exact H|]. now apply adds_line. Qed.

Lemma adds_app : forall p a b, adds a b -> adds (String.append p a) (String.append p b).
Proof.
  intros p a b H. induction H as [|A C B H IH G]; [constructor|]. rewrite <- append_assoc. apply adds_line; [|exact G].
  rewrite append_assoc. exact IH.
Qed.

(** ** A step stays on its line *)

Lemma span_line : forall p A B a b, p "010"%char = false -> span p (String.append A (String "010" B)) = (a, b) ->
  exists A2, b = String.append A2 (String "010" B) /\
    forall X, span p (String.append A (String "010" X)) = (a, String.append A2 (String "010" X)).
Proof. exact VyReadNote.span_line. Qed.

Lemma upto_line : forall q B, Ascii.eqb "010" q = false -> forall A a b, upto_quote q (String.append A (String "010" B)) = Some (a, b) ->
  exists A2, b = String.append A2 (String "010" B) /\
    forall X, upto_quote q (String.append A (String "010" X)) = Some (a, String.append A2 (String "010" X)).
Proof. exact VyReadNote.upto_line. Qed.

Lemma symbols_no_nl : forallb (every not_nl) symbols4 = true /\ forallb (every not_nl) symbols3 = true /\ forallb (every not_nl) symbols2 = true /\ forallb (every not_nl) symbols1 = true.
Proof. repeat split; vm_compute; reflexivity. Qed.

Lemma take_line : forall n A B l, forallb (every not_nl) l = true -> smem (take n (String.append A (String "010" B))) l = true ->
  n <= String.length A.
Proof.
  intros n A B l H M. destruct (Compare_dec.le_lt_dec n (String.length A)) as [L|L]; [exact L|]. exfalso.
  assert (E : every not_nl (take n (String.append A (String "010" B))) = false).
  { clear M H. revert n L. induction A as [|c A IH]; intros [|n] L; cbn in L; try lia; [reflexivity|].
    cbn [String.append]. change (every not_nl (String c (take n (String.append A (String "010" B)))) = false).
    change (not_nl c && every not_nl (take n (String.append A (String "010" B))) = false). rewrite (IH n) by lia. apply andb_false_r. }
  rewrite (VyReadNote.smem_no_nl l H _ E) in M. discriminate M.
Qed.

Lemma take_in : forall n A X, n <= String.length A -> take n (String.append A X) = take n A /\ drop n (String.append A X) = String.append (drop n A) X.
Proof.
  induction n as [|n IH]; intros A X L; [split; [reflexivity|destruct A; reflexivity]|]. destruct A as [|c A]; [cbn in L; lia|].
  cbn in L. destruct (IH A X ltac:(lia)) as (P & Q). cbn [String.append]. split.
  - change (String c (take n (String.append A X)) = String c (take n A)). now rewrite P.
  - exact Q.
Qed.

(** Whether the first few characters are a symbol is seen on the line. *)
Lemma take_same : forall n A B X l, forallb (every not_nl) l = true ->
  smem (take n (String.append A (String "010" B))) l = smem (take n (String.append A (String "010" X))) l.
Proof.
  intros n A B X l H. destruct (Compare_dec.le_lt_dec n (String.length A)) as [L|L].
  - now rewrite !(proj1 (take_in n A _ L)).
  - destruct (smem (take n (String.append A (String "010" B))) l) eqn:M; [pose proof (take_line _ _ _ _ H M); lia|].
    destruct (smem (take n (String.append A (String "010" X))) l) eqn:M2; [pose proof (take_line _ _ _ _ H M2); lia|]. reflexivity.
Qed.

Lemma symbol_line : forall A B a b, symbol (String.append A (String "010" B)) = Some (a, b) ->
  exists A2, b = String.append A2 (String "010" B) /\
    forall X, symbol (String.append A (String "010" X)) = Some (a, String.append A2 (String "010" X)).
Proof.
  intros A B a b E. destruct symbols_no_nl as (N4 & N3 & N2 & N1).
  assert (G : forall n l, forallb (every not_nl) l = true -> smem (take n (String.append A (String "010" B))) l = true ->
    Some (take n (String.append A (String "010" B)), drop n (String.append A (String "010" B))) = Some (a, b) ->
    b = String.append (drop n A) (String "010" B) /\ forall X, Some (take n (String.append A (String "010" X)), drop n (String.append A (String "010" X))) = Some (a, String.append (drop n A) (String "010" X))).
  { intros n l H M S. pose proof (take_line _ _ _ _ H M) as L. destruct (take_in n A (String "010" B) L) as (P & Q). injection S as <- <-.
    rewrite P, Q. split; [reflexivity|]. intros X. destruct (take_in n A (String "010" X) L) as (P2 & Q2). now rewrite P2, Q2. }
  unfold symbol in *.
  destruct (smem (take 4 (String.append A (String "010" B))) symbols4) eqn:M4;
    [destruct (G _ _ N4 M4 E) as (-> & K); eexists; split; [reflexivity|]; intros X; rewrite <- (take_same 4 A B X _ N4), M4; apply K|].
  destruct (smem (take 3 (String.append A (String "010" B))) symbols3) eqn:M3;
    [destruct (G _ _ N3 M3 E) as (-> & K); eexists; split; [reflexivity|]; intros X; rewrite <- (take_same 4 A B X _ N4), M4, <- (take_same 3 A B X _ N3), M3; apply K|].
  destruct (smem (take 2 (String.append A (String "010" B))) symbols2) eqn:M2;
    [destruct (G _ _ N2 M2 E) as (-> & K); eexists; split; [reflexivity|]; intros X; rewrite <- (take_same 4 A B X _ N4), M4, <- (take_same 3 A B X _ N3), M3, <- (take_same 2 A B X _ N2), M2; apply K|].
  destruct (smem (take 1 (String.append A (String "010" B))) symbols1) eqn:M1; [|discriminate E].
  destruct (G _ _ N1 M1 E) as (-> & K); eexists; split; [reflexivity|]; intros X; rewrite <- (take_same 4 A B X _ N4), M4, <- (take_same 3 A B X _ N3), M3, <- (take_same 2 A B X _ N2), M2, <- (take_same 1 A B X _ N1), M1; apply K.
Qed.

Lemma fraction_line : forall A B a b, fraction (String.append A (String "010" B)) = (a, b) ->
  exists A2, b = String.append A2 (String "010" B) /\
    forall X, fraction (String.append A (String "010" X)) = (a, String.append A2 (String "010" X)).
Proof.
  intros A B a b E. destruct A as [|p [|c A]].
  - exists "". cbn [String.append] in *. assert (G : forall Y, fraction (String "010" Y) = ("", String "010" Y)) by (intros [|y Y]; reflexivity).
    rewrite G in E. injection E as <- <-. split; [reflexivity|]. intros X. apply G.
  - exists (String p ""). cbn [String.append] in *.
    assert (G : forall Y, fraction (String p (String "010" Y)) = ("", String p (String "010" Y))) by (intros Y; unfold fraction; change (digit "010") with false; now rewrite andb_false_r).
    rewrite G in E. injection E as <- <-. split; [reflexivity|]. intros X. apply G.
  - cbn [String.append] in *. unfold fraction in *. destruct (Ascii.eqb p "." && digit c).
    + change (String c (String.append A (String "010" B))) with (String.append (String c A) (String "010" B)) in E.
      destruct (span numchar (String.append (String c A) (String "010" B))) as (x & y) eqn:S. injection E as <- <-.
      destruct (span_line numchar _ _ _ _ eq_refl S) as (A2 & -> & H). exists A2. split; [reflexivity|]. intros X.
      change (String c (String.append A (String "010" X))) with (String.append (String c A) (String "010" X)). now rewrite H.
    + injection E as <- <-. exists (String p (String c A)). split; reflexivity.
Qed.

Lemma exponent_line : forall A B a b, exponent (String.append A (String "010" B)) = (a, b) ->
  exists A2, b = String.append A2 (String "010" B) /\
    forall X, exponent (String.append A (String "010" X)) = (a, String.append A2 (String "010" X)).
Proof.
  intros A B a b E. destruct A as [|p [|c A]].
  - exists "". cbn [String.append] in *. assert (G : forall Y, exponent (String "010" Y) = ("", String "010" Y)) by (intros [|y Y]; reflexivity).
    rewrite G in E. injection E as <- <-. split; [reflexivity|]. intros X. apply G.
  - exists (String p ""). cbn [String.append] in *.
    assert (G : forall Y, exponent (String p (String "010" Y)) = ("", String p (String "010" Y))).
    { intros Y. unfold exponent. destruct (_ || _); [|reflexivity]. change (digit "010") with false. cbv iota. destruct Y; reflexivity. }
    rewrite G in E. injection E as <- <-. split; [reflexivity|]. intros X. apply G.
  - cbn [String.append] in *. unfold exponent in *. destruct (Ascii.eqb p "e" || Ascii.eqb p "E").
    2:{ injection E as <- <-. exists (String p (String c A)). split; reflexivity. }
    destruct (digit c).
    + change (String c (String.append A (String "010" B))) with (String.append (String c A) (String "010" B)) in E.
      destruct (span numchar (String.append (String c A) (String "010" B))) as (x & y) eqn:S. injection E as <- <-.
      destruct (span_line numchar _ _ _ _ eq_refl S) as (A2 & -> & H). exists A2. split; [reflexivity|]. intros X.
      change (String c (String.append A (String "010" X))) with (String.append (String c A) (String "010" X)). now rewrite H.
    + destruct A as [|c2 A]; cbn [String.append] in *.
      * change (digit "010") with false in *. rewrite andb_false_r in *. injection E as <- <-. exists (String p (String c "")). split; reflexivity.
      * destruct (Ascii.eqb c "-" && digit c2).
        -- change (String c2 (String.append A (String "010" B))) with (String.append (String c2 A) (String "010" B)) in E.
           destruct (span numchar (String.append (String c2 A) (String "010" B))) as (x & y) eqn:S. injection E as <- <-.
           destruct (span_line numchar _ _ _ _ eq_refl S) as (A2 & -> & H). exists A2. split; [reflexivity|]. intros X.
           change (String c2 (String.append A (String "010" X))) with (String.append (String c2 A) (String "010" X)). now rewrite H.
        -- injection E as <- <-. exists (String p (String c (String c2 A))). split; reflexivity.
Qed.

Lemma number_line : forall A B a b, A <> "" -> number (String.append A (String "010" B)) = (a, b) ->
  exists A2, b = String.append A2 (String "010" B) /\
    forall X, number (String.append A (String "010" X)) = (a, String.append A2 (String "010" X)).
Proof.
  intros A B a b N E.
  assert (P : forall X Y, String.prefix "0x" (String.append A (String "010" X)) = String.prefix "0x" (String.append A (String "010" Y))).
  { intros X Y. destruct A as [|c1 [|c2 A]]; [congruence| |]; cbn [String.append String.prefix].
    - destruct (ascii_dec "0" c1); [|reflexivity]. destruct (ascii_dec "x" "010"); [discriminate|reflexivity].
    - destruct (ascii_dec "0" c1); [|reflexivity]. destruct (ascii_dec "x" c2); [|reflexivity].
      destruct A; cbn; [destruct X, Y|]; reflexivity. }
  unfold number in *. destruct (String.prefix "0x" (String.append A (String "010" B))) eqn:Q.
  - destruct A as [|c1 [|c2 A]]; [congruence| |].
    + exfalso. revert Q. cbn [String.append String.prefix]. destruct (ascii_dec "0" c1); [|discriminate].
      destruct (ascii_dec "x" "010"); discriminate.
    + change (drop 2 (String.append (String c1 (String c2 A)) (String "010" B))) with (String.append A (String "010" B)) in E.
      destruct (span _ (String.append A (String "010" B))) as (x & y) eqn:S. injection E as <- <-.
      destruct (span_line (fun c => hexdigit c || Ascii.eqb c "_") A B _ _ eq_refl S) as (A2 & -> & H). exists A2. split; [reflexivity|]. intros X.
      rewrite (P X B), Q. change (drop 2 (String.append (String c1 (String c2 A)) (String "010" X))) with (String.append A (String "010" X)). now rewrite H.
  - destruct (span numchar (String.append A (String "010" B))) as (x & y) eqn:S.
    destruct (span_line numchar A B _ _ eq_refl S) as (A2 & -> & H).
    destruct (fraction (String.append A2 (String "010" B))) as (f & y) eqn:F. destruct (fraction_line _ _ _ _ F) as (A3 & -> & HF).
    destruct (exponent (String.append A3 (String "010" B))) as (g & y) eqn:G. destruct (exponent_line _ _ _ _ G) as (A4 & -> & HG).
    injection E as <- <-. exists A4. split; [reflexivity|]. intros X. now rewrite (P X B), Q, H, HF, HG.
Qed.

Lemma starts_line : forall c A B X, Ascii.eqb "010" c = false -> starts_with c (String.append A (String "010" B)) = starts_with c (String.append A (String "010" X)).
Proof. intros c [|a A] B X H; [cbn [String.append starts_with]; reflexivity|reflexivity]. Qed.

Lemma quoted_line : forall f A B t r, quoted f (String.append A (String "010" B)) = Some (t, r) ->
  exists A2, r = String.append A2 (String "010" B) /\
    forall X, quoted f (String.append A (String "010" X)) = Some (t, String.append A2 (String "010" X)).
Proof.
  intros f A B t r E. unfold quoted in *. destruct (upto_quote """" (String.append A (String "010" B))) as [(x, y)|] eqn:U; [|discriminate E].
  destruct (upto_line """" B eq_refl _ _ _ U) as (A2 & -> & H). destruct (f x) eqn:Y; [|discriminate E].
  injection E as <- <-. exists A2. split; [reflexivity|]. intros X. now rewrite H, Y.
Qed.

(** The text after the opening quote that stands behind a word. *)
Lemma prefixed_line : forall f A B t r, starts_with """" (String.append A (String "010" B)) = true ->
  quoted f (drop 1 (String.append A (String "010" B))) = Some (t, r) ->
  exists A2, r = String.append A2 (String "010" B) /\
    forall X, quoted f (drop 1 (String.append A (String "010" X))) = Some (t, String.append A2 (String "010" X)).
Proof.
  intros f A B t r S E. destruct A as [|a A]; [discriminate S|].
  change (drop 1 (String.append (String a A) (String "010" B))) with (String.append A (String "010" B)) in E. exact (quoted_line _ _ _ _ _ E).
Qed.

Lemma next_line : forall A B t r, A <> "" -> on_line (String.append A (String "010" B)) = true -> next (String.append A (String "010" B)) = Some (t, r) ->
  exists A2, r = String.append A2 (String "010" B) /\
    forall X, on_line (String.append A (String "010" X)) = true /\ next (String.append A (String "010" X)) = Some (t, String.append A2 (String "010" X)).
Proof.
  intros A B t r N O E. destruct A as [|c A]; [congruence|]. clear N.
  assert (O2 : forall X, on_line (String.append (String c A) (String "010" X)) = true).
  { intros X. unfold on_line in O |- *. cbn [String.append] in O |- *. rewrite (starts_line "*" A X B eq_refl). exact O. }
  cut (exists A2, r = String.append A2 (String "010" B) /\ forall X, next (String.append (String c A) (String "010" X)) = Some (t, String.append A2 (String "010" X))).
  { intros (A2 & Q & H). exists A2. split; [exact Q|]. intros X. split; [apply O2|apply H]. }
  cbn [String.append on_line] in O. apply negb_true_iff in O.
  cbn [String.append] in *. unfold next in E |- *. destruct (Ascii.eqb c " " || Ascii.eqb c "010" || Ascii.eqb c "013" || Ascii.eqb c "009").
  { injection E as <- <-. exists A. split; reflexivity. }
  destruct (Ascii.eqb c "/" && starts_with "/" (String.append A (String "010" B))) eqn:H2.
  { destruct (span (fun a => negb (Ascii.eqb a "010")) (String c (String.append A (String "010" B)))) as (x & y) eqn:S.
    injection E as <- <-. cbn [snd].
    destruct (span_line (fun a => negb (Ascii.eqb a "010")) (String c A) B _ _ eq_refl S) as (A2 & -> & H). exists A2. split; [reflexivity|].
    intros X. rewrite (starts_line "/" A X B eq_refl), H2. specialize (H X). cbn [String.append] in H. rewrite H. reflexivity. }
  rewrite O in E.
  assert (K : exists A2, r = String.append A2 (String "010" B) /\ forall X,
    (if Ascii.eqb c """" then quoted (fun a => option_map KText (sol_body a)) (String.append A (String "010" X))
     else if letter c then let (a, b) := span wordchar (String c (String.append A (String "010" X))) in
        if (a =?s "hex") && starts_with """" b then quoted (fun a => option_map KHex (hex_pairs (unquote a))) (drop 1 b)
        else if (a =?s "unicode") && starts_with """" b then quoted (fun a => option_map KUnicode (unicode_body a)) (drop 1 b)
        else Some (Some (KWord a), b)
      else if digit c || Ascii.eqb c "." && match String.append A (String "010" X) with String d _ => digit d | EmptyString => false end then
        let (a, b) := number (String c (String.append A (String "010" X))) in Some (Some (KNum a), b)
      else match symbol (String c (String.append A (String "010" X))) with Some (a, b) => Some (Some (KSym a), b) | None => None end)
    = Some (t, String.append A2 (String "010" X))).
  2:{ destruct K as (A2 & Q & K). exists A2. split; [exact Q|]. intros X. rewrite (starts_line "/" A X B eq_refl), H2, (starts_line "*" A X B eq_refl), O. exact (K X). }
  destruct (Ascii.eqb c """"); [exact (quoted_line _ _ _ _ _ E)|].
  destruct (letter c).
  { destruct (span wordchar (String c (String.append A (String "010" B)))) as (x & y) eqn:S.
    destruct (span_line wordchar (String c A) B _ _ eq_refl S) as (A2 & -> & H). cbn [String.append] in H.
    destruct ((x =?s "hex") && starts_with """" (String.append A2 (String "010" B))) eqn:X1.
    { destruct (prefixed_line _ _ _ _ _ (proj2 (proj1 (andb_true_iff _ _) X1)) E) as (A3 & -> & H3). exists A3. split; [reflexivity|].
      intros X. rewrite H, (starts_line """" A2 X B eq_refl), X1. apply H3. }
    destruct ((x =?s "unicode") && starts_with """" (String.append A2 (String "010" B))) eqn:X2.
    { destruct (prefixed_line _ _ _ _ _ (proj2 (proj1 (andb_true_iff _ _) X2)) E) as (A3 & -> & H3). exists A3. split; [reflexivity|].
      intros X. rewrite H, (starts_line """" A2 X B eq_refl), X1, X2. apply H3. }
    injection E as <- <-. exists A2. split; [reflexivity|]. intros X. rewrite H, (starts_line """" A2 X B eq_refl), X1, X2. reflexivity. }
  assert (D : forall X, match String.append A (String "010" X) with String d _ => digit d | EmptyString => false end = match A with String d _ => digit d | EmptyString => false end)
    by (intros X; destruct A; reflexivity).
  rewrite D in E.
  destruct (digit c || Ascii.eqb c "." && match A with String d _ => digit d | EmptyString => false end) eqn:H6.
  { destruct (number (String c (String.append A (String "010" B)))) as (x & y) eqn:S. injection E as <- <-.
    destruct (number_line (String c A) B _ _ ltac:(discriminate) S) as (A2 & -> & H). exists A2. split; [reflexivity|].
    intros X. rewrite D, H6. specialize (H X). cbn [String.append] in H. now rewrite H. }
  destruct (symbol (String c (String.append A (String "010" B)))) as [(x, y)|] eqn:S; [|discriminate E]. injection E as <- <-.
  destruct (symbol_line (String c A) B _ _ S) as (A2 & -> & H). exists A2. split; [reflexivity|].
  intros X. rewrite D, H6. specialize (H X). cbn [String.append] in H. now rewrite H.
Qed.

(** ** A line that is skipped *)

Lemma comment_step : forall s B, every not_nl s = true -> starts_with "/" s = true ->
  next (String "/" (String.append s (String "010" B))) = Some (None, String "010" B).
Proof.
  intros s B H S. destruct s as [|d s]; [discriminate S|]. cbn in S. apply Ascii.eqb_eq in S. subst d.
  unfold next. cbn [Ascii.eqb Bool.eqb orb andb starts_with String.append]. do 2 f_equal.
  change (String "/" (String "/" (String.append s (String "010" B)))) with (String.append (String "/" (String "/" s)) (String "010" B)).
  change span with SpecVyRead.span. rewrite VyReadLex.span_all; [reflexivity|exact H|reflexivity].
Qed.

Lemma rest_of_line : forall C B, ignorable C = true -> lx (String.append C (String "010" B)) [] (String "010" B).
Proof.
  intros C B H. unfold ignorable in H. apply andb_true_iff in H. destruct H as (E & S). revert E S.
  induction C as [|c C IH]; intros E S; [constructor|].
  change (span (Ascii.eqb " ") (String c C)) with (if Ascii.eqb " " c then let (a, b) := span (Ascii.eqb " ") C in (String c a, b) else ("", String c C)) in S.
  destruct (Ascii.eqb " " c) eqn:Hc.
  - apply Ascii.eqb_eq in Hc. subst c. cbn [String.append]. eapply lx_skip; [reflexivity|reflexivity|]. apply IH.
    + cbn in E. exact E.
    + destruct (span (Ascii.eqb " ") C). exact S.
  - cbn [snd remark] in S. apply andb_true_iff in S. destruct S as (S & S2). apply Ascii.eqb_eq in S. subst c. cbn [String.append]. cbn in E.
    eapply lx_skip; [|destruct C as [|d C]; [discriminate S2|]|constructor].
    + apply comment_step; [exact E|exact S2].
    + cbn in S2. apply Ascii.eqb_eq in S2. subst d. reflexivity.
Qed.

Lemma skip_line : forall C B, ignorable C = true -> lx (String "010" (String.append C (String "010" B))) [] (String "010" B).
Proof. intros C B H. eapply lx_skip; [reflexivity|reflexivity|]. now apply rest_of_line. Qed.

Lemma lx_line : forall C, ignorable C = true -> forall s ts e, lx s ts e -> e = "" ->
  forall A B, s = String.append A (String "010" B) ->
  lx (String.append A (String "010" (String.append C (String "010" B)))) ts "".
Proof.
  intros C HC s ts e L. induction L as [s|s t r ts r2 E O L IH]; intros Q A B W; subst.
  - destruct A; discriminate.
  - destruct A as [|c A].
    + cbn [String.append] in *. change (given t ts) with ([] ++ given t ts). eapply lx_app; [apply skip_line; exact HC|].
      eapply lx_step; [exact E|exact O|exact L].
    + assert (NE : String c A <> "") by discriminate. destruct (next_line _ _ _ _ NE O E) as (A2 & -> & H).
      eapply lx_step; [apply H|apply H|]. apply IH; reflexivity.
Qed.

Lemma adds_lx : forall s s', adds s s' -> forall ts, lx s ts "" -> lx s' ts "".
Proof.
  intros s s' H. induction H as [|A C B H IH G]; intros ts L; [exact L|].
  exact (lx_line C G _ _ _ (IH _ L) eq_refl A B eq_refl).
Qed.

(** With a line end in front, a line may be added at the start. *)
Theorem adds_tokens : forall s s' ts, adds (String "010" s) (String "010" s') -> lx s ts "" -> lx s' ts "".
Proof.
  intros s s' ts H L. assert (M : lx (String "010" s) ts "") by (eapply lx_skip; [reflexivity|reflexivity|exact L]).
  pose proof (adds_lx _ _ H _ M) as K. remember (String "010" s') as u eqn:U. remember "" as e eqn:Q.
  destruct K as [u|u t r ts r2 E O K]; [congruence|]. subst u. cbn in E. injection E as <- <-. exact K.
Qed.
