(** Lines that hold nothing or a comment do not change what is read. *)
From Coq Require Import String Ascii List NArith ZArith Bool Lia.
From Verif Require Import Base Json SpecLiteral SpecVyText SpecVyRead LitFacts PathFacts VyText VyTextStmt VyReadLex.
Import ListNotations.
Open Scope string_scope.
Open Scope list_scope.

Definition not_nl (a : ascii) : bool := negb (Ascii.eqb a "010").

(** Blanks, and then nothing or a comment. *)
Definition ignorable (s : string) : bool :=
  every not_nl s && next_is (Ascii.eqb "#") (snd (span (Ascii.eqb " ") s)).

(** Some lines like that are added. *)
Inductive adds (s : string) : string -> Prop :=
| adds_none : adds s s
| adds_line : forall A C B, adds s (String.append A (String "010" B)) -> ignorable C = true ->
    adds s (String.append A (String "010" (String.append C (String "010" B)))).

Lemma adds_trans : forall a b c, adds a b -> adds b c -> adds a c.
Proof. intros a b c H K. induction K; [exact H|]. now apply adds_line. Qed.

Lemma adds_app : forall p a b, adds a b -> adds (String.append p a) (String.append p b).
Proof.
  intros p a b H. induction H as [|A C B H IH G]; [constructor|]. rewrite <- append_assoc. apply adds_line; [|exact G].
  rewrite append_assoc. exact IH.
Qed.

(** ** A step stays on its line *)

Lemma span_line : forall p A B a b, p "010"%char = false -> span p (String.append A (String "010" B)) = (a, b) ->
  exists A2, b = String.append A2 (String "010" B) /\
    forall X, span p (String.append A (String "010" X)) = (a, String.append A2 (String "010" X)).
Proof.
  intros p A B. induction A as [|c A IH]; intros a b N E; cbn [String.append span] in *.
  - rewrite N in E. injection E as <- <-. exists "". split; [reflexivity|]. intros X. now rewrite N.
  - destruct (p c) eqn:Hc.
    + destruct (span p (String.append A (String "010" B))) as (a0 & b0) eqn:S. injection E as <- <-.
      destruct (IH _ _ N eq_refl) as (A2 & -> & H). exists A2. split; [reflexivity|]. intros X. now rewrite H.
    + injection E as <- <-. exists (String c A). split; [reflexivity|]. intros X. reflexivity.
Qed.

Lemma upto_line : forall q B, Ascii.eqb "010" q = false -> forall A a b, upto_quote q (String.append A (String "010" B)) = Some (a, b) ->
  exists A2, b = String.append A2 (String "010" B) /\
    forall X, upto_quote q (String.append A (String "010" X)) = Some (a, String.append A2 (String "010" X)).
Proof.
  intros q B Q A. remember (String.length A) as n eqn:L. revert A L.
  induction n as [n IH] using lt_wf_ind. intros A -> a b E. destruct A as [|c A].
  - cbn [String.append upto_quote] in E. rewrite Q in E. discriminate E.
  - cbn [String.append upto_quote] in E |- *. destruct (Ascii.eqb c q) eqn:H1.
    { injection E as <- <-. exists A. split; reflexivity. }
    destruct (Ascii.eqb c "\") eqn:H2.
    { destruct A as [|d A]; cbn [String.append] in E |- *; [discriminate E|].
      destruct (Ascii.eqb d "010"); [discriminate E|].
      destruct (upto_quote q (String.append A (String "010" B))) as [(a0, b0)|] eqn:U; [|discriminate E].
      injection E as <- <-. destruct (IH (String.length A)) with (A := A) (a := a0) (b := b0) as (A2 & -> & H); [cbn; lia|reflexivity|exact U|].
      exists A2. split; [reflexivity|]. intros X. now rewrite H. }
    destruct (Ascii.eqb c "010"); [discriminate E|].
    destruct (upto_quote q (String.append A (String "010" B))) as [(a0, b0)|] eqn:U; [|discriminate E].
    injection E as <- <-. destruct (IH (String.length A)) with (A := A) (a := a0) (b := b0) as (A2 & -> & H); [cbn; lia|reflexivity|exact U|].
    exists A2. split; [reflexivity|]. intros X. now rewrite H.
Qed.

Lemma smem_no_nl : forall l, forallb (every not_nl) l = true -> forall s, every not_nl s = false -> smem s l = false.
Proof.
  intros l H s E. destruct (smem s l) eqn:M; [|reflexivity]. apply smem_true_In in M.
  rewrite (proj1 (forallb_forall _ _) H s M) in E. discriminate E.
Qed.

Lemma symbols_no_nl : forallb (every not_nl) symbols3 = true /\ forallb (every not_nl) symbols2 = true /\ forallb (every not_nl) symbols1 = true.
Proof. repeat split; vm_compute; reflexivity. Qed.

Lemma symbol_line : forall A B a b, A <> "" -> symbol (String.append A (String "010" B)) = Some (a, b) ->
  exists A2, b = String.append A2 (String "010" B) /\
    forall X, symbol (String.append A (String "010" X)) = Some (a, String.append A2 (String "010" X)).
Proof.
  intros A B a b N E. destruct symbols_no_nl as (N3 & N2 & N1).
  assert (K : forall x y, every not_nl (String x (String "010" y)) = false) by (intros x y; cbn; now rewrite andb_false_r).
  destruct A as [|c1 [|c2 [|c3 A]]]; [congruence| | |].
  - unfold symbol in *. cbn [String.append take drop] in *.
    assert (K3 : forall B, smem (String c1 (String "010" (match B with EmptyString => "" | String c r => String c "" end))) symbols3 = false)
      by (intros Y; exact (smem_no_nl _ N3 _ (K _ _))).
    assert (K2 : smem (String c1 (String "010" "")) symbols2 = false) by exact (smem_no_nl _ N2 _ (K _ _)).
    rewrite (K3 B), K2 in E. destruct (smem (String c1 "") symbols1) eqn:M; [|discriminate E]. injection E as <- <-.
    exists "". split; [reflexivity|]. intros X. rewrite (K3 X), K2, ?M. reflexivity.
  - unfold symbol in *. cbn [String.append take drop] in *.
    assert (K3 : smem (String c1 (String c2 (String "010" ""))) symbols3 = false).
    { apply (smem_no_nl _ N3). cbn. now rewrite !andb_false_r. }
    rewrite K3 in E. destruct (smem (String c1 (String c2 "")) symbols2) eqn:M2.
    + injection E as <- <-. exists "". split; [reflexivity|]. intros X. now rewrite K3, ?M2.
    + destruct (smem (String c1 "") symbols1) eqn:M; [|discriminate E]. injection E as <- <-.
      exists (String c2 ""). split; [reflexivity|]. intros X. now rewrite K3, ?M2, ?M.
  - unfold symbol in *. cbn [String.append take drop] in *.
    destruct (smem (String c1 (String c2 (String c3 ""))) symbols3) eqn:M3;
      [|destruct (smem (String c1 (String c2 "")) symbols2) eqn:M2;
        [|destruct (smem (String c1 "") symbols1) eqn:M1; [|discriminate E]]]; injection E as <- <-.
    + exists A. split; reflexivity.
    + exists (String c3 A). split; reflexivity.
    + exists (String c2 (String c3 A)). split; reflexivity.
Qed.

Lemma number_line : forall A B a b, A <> "" -> number (String.append A (String "010" B)) = (a, b) ->
  exists A2, b = String.append A2 (String "010" B) /\
    forall X, number (String.append A (String "010" X)) = (a, String.append A2 (String "010" X)).
Proof.
  intros A B a b N E.
  assert (P : forall X Y, String.prefix "0x" (String.append A (String "010" X)) = String.prefix "0x" (String.append A (String "010" Y))).
  { intros X Y. destruct A as [|c1 [|c2 A]]; [congruence| |]; cbn [String.append String.prefix].
    - destruct (ascii_dec "0" c1); [|reflexivity]. destruct (ascii_dec "x" "010"); [discriminate|reflexivity].
    - destruct (ascii_dec "0" c1); [|reflexivity]. destruct (ascii_dec "x" c2); [|reflexivity].
      destruct A; cbn; [destruct X, Y|]; reflexivity. }
  unfold number in *. destruct (String.prefix "0x" (String.append A (String "010" B))) eqn:Q.
  - destruct A as [|c1 [|c2 A]]; [congruence| |].
    + exfalso. revert Q. cbn [String.append String.prefix]. destruct (ascii_dec "0" c1); [|discriminate].
      destruct (ascii_dec "x" "010"); discriminate.
    + cbn [String.append drop] in E. destruct (span hexdigit (String.append A (String "010" B))) as (x & y) eqn:S. injection E as <- <-.
      destruct (span_line hexdigit A B _ _ eq_refl S) as (A2 & -> & H). exists A2. split; [reflexivity|]. intros X.
      rewrite (P X B), Q. cbn [String.append drop]. now rewrite H.
  - destruct (span digit (String.append A (String "010" B))) as (x & y) eqn:S.
    destruct (span_line digit A B _ _ eq_refl S) as (A2 & -> & H).
    destruct A2 as [|p [|c A2]]; cbn [String.append] in E.
    + assert (G : (a, b) = (x, String "010" B)) by (destruct B; cbn in E; symmetry; exact E). injection G as -> ->.
      exists "". split; [reflexivity|]. intros X. rewrite (P X B), Q, H. destruct X; reflexivity.
    + replace (digit "010") with false in E by reflexivity. rewrite andb_false_r in E. injection E as <- <-.
      exists (String p ""). split; [reflexivity|]. intros X. rewrite (P X B), Q, H. cbn [String.append].
      replace (digit "010") with false by reflexivity. now rewrite andb_false_r.
    + destruct (Ascii.eqb p "." && digit c) eqn:D.
      * destruct (span digit (String c (String.append A2 (String "010" B)))) as (u & v) eqn:S2. injection E as <- <-.
        destruct (span_line digit (String c A2) B _ _ eq_refl S2) as (A3 & -> & H3). exists A3. split; [reflexivity|].
        intros X. rewrite (P X B), Q, H. cbn [String.append]. rewrite D. change (String c (String.append A2 (String "010" X))) with (String.append (String c A2) (String "010" X)).
        now rewrite H3.
      * injection E as <- <-. exists (String p (String c A2)). split; [reflexivity|]. intros X. rewrite (P X B), Q, H. cbn [String.append]. now rewrite D.
Qed.

Lemma next_line : forall d A B t d1 r, A <> "" -> next d (String.append A (String "010" B)) = Some (t, d1, r) ->
  exists A2, r = String.append A2 (String "010" B) /\
    forall X, next d (String.append A (String "010" X)) = Some (t, d1, String.append A2 (String "010" X)).
Proof.
  intros d A B t d1 r N E. destruct A as [|c A]; [congruence|]. clear N.
  assert (P : forall X Y, String.prefix "b'" (String c (String.append A (String "010" X))) = String.prefix "b'" (String c (String.append A (String "010" Y)))).
  { intros X Y. destruct A as [|c2 A]; cbn [String.append String.prefix].
    - destruct (ascii_dec "b" c); [|reflexivity]. destruct (ascii_dec "'" "010"); [discriminate|reflexivity].
    - destruct (ascii_dec "b" c); [|reflexivity]. destruct (ascii_dec "'" c2); [|reflexivity].
      destruct A; cbn; [destruct X, Y|]; reflexivity. }
  cbn [String.append] in *. unfold next in E |- *. destruct (Ascii.eqb c " ") eqn:H1.
  { injection E as <- <- <-. exists A. split; reflexivity. }
  destruct (Ascii.eqb c "#") eqn:H2.
  { destruct (span (fun a => negb (Ascii.eqb a "010")) (String c (String.append A (String "010" B)))) as (x & y) eqn:S.
    injection E as <- <- <-.
    destruct (span_line (fun a => negb (Ascii.eqb a "010")) (String c A) B _ _ eq_refl S) as (A2 & -> & H). exists A2. split; [reflexivity|].
    intros X. specialize (H X). cbn [String.append] in H. rewrite H. reflexivity. }
  destruct (Ascii.eqb c "010") eqn:H3.
  { destruct d as [|d].
    - destruct (span (Ascii.eqb " ") (String.append A (String "010" B))) as (x & y) eqn:S.
      destruct (span_line (Ascii.eqb " ") A B _ _ eq_refl S) as (A2 & -> & H).
      exists A2. destruct A2 as [|a A2]; cbn [String.append] in E.
      + injection E as <- <- <-. split; [reflexivity|]. intros X. rewrite H. reflexivity.
      + destruct (Ascii.eqb a "010" || Ascii.eqb a "#") eqn:Q; injection E as <- <- <-; (split; [reflexivity|]); intros X; rewrite H; cbn [String.append]; now rewrite Q.
    - injection E as <- <- <-. exists A. split; reflexivity. }
  destruct (Ascii.eqb c """") eqn:H4.
  { destruct (upto_quote """" (String.append A (String "010" B))) as [(x, y)|] eqn:U; [|discriminate E].
    destruct (upto_line """" B eq_refl _ _ _ U) as (A2 & -> & H). destruct (py_body """" x) eqn:Y; [|discriminate E].
    injection E as <- <- <-. exists A2. split; [reflexivity|]. intros X. now rewrite H, Y. }
  destruct (String.prefix "b'" (String c (String.append A (String "010" B)))) eqn:Q.
  { destruct A as [|c2 A].
    - exfalso. revert Q. cbn [String.append String.prefix]. destruct (ascii_dec "b" c); [|discriminate].
      destruct (ascii_dec "'" "010"); discriminate.
    - cbn [String.append drop] in E. destruct (upto_quote "'" (String.append A (String "010" B))) as [(x, y)|] eqn:U; [|discriminate E].
      destruct (upto_line "'" B eq_refl _ _ _ U) as (A2 & -> & H). destruct (py_body "'" x) eqn:Y; [|discriminate E].
      injection E as <- <- <-. exists A2. split; [reflexivity|]. intros X. rewrite (P X B), Q. cbn [String.append drop]. now rewrite H, Y. }
  destruct (letter c) eqn:H5.
  { destruct (span wordchar (String c (String.append A (String "010" B)))) as (x & y) eqn:S. injection E as <- <- <-.
    destruct (span_line wordchar (String c A) B _ _ eq_refl S) as (A2 & -> & H). exists A2. split; [reflexivity|].
    intros X. rewrite (P X B), Q. specialize (H X). cbn [String.append] in H. now rewrite H. }
  destruct (digit c) eqn:H6.
  { destruct (number (String c (String.append A (String "010" B)))) as (x & y) eqn:S. injection E as <- <- <-.
    destruct (number_line (String c A) B _ _ ltac:(discriminate) S) as (A2 & -> & H). exists A2. split; [reflexivity|].
    intros X. rewrite (P X B), Q. specialize (H X). cbn [String.append] in H. now rewrite H. }
  destruct (symbol (String c (String.append A (String "010" B)))) as [(x, y)|] eqn:S; [|discriminate E]. injection E as <- <- <-.
  destruct (symbol_line (String c A) B _ _ ltac:(discriminate) S) as (A2 & -> & H). exists A2. split; [reflexivity|].
  intros X. rewrite (P X B), Q. specialize (H X). cbn [String.append] in H. now rewrite H.
Qed.

(** ** A line that is skipped *)

Lemma span_split : forall p s rest, next_is (fun c => negb (p c)) rest = true ->
  span p (String.append s rest) = match snd (span p s) with "" => (s, rest) | _ => (fst (span p s), String.append (snd (span p s)) rest) end.
Proof.
  intros p s rest R. induction s as [|c s IH]; cbn [String.append].
  - cbn. destruct rest as [|c r]; [reflexivity|]. cbn in R. apply negb_true_iff in R. cbn. now rewrite R.
  - cbn [span]. destruct (p c) eqn:Hc; [|reflexivity]. rewrite IH. destruct (span p s) as (a & b). cbn. destruct b; reflexivity.
Qed.

Lemma comment_step : forall d s B, every not_nl s = true ->
  next d (String "#" (String.append s (String "010" B))) = Some (None, d, String "010" B).
Proof.
  intros d s B H. unfold next. cbn [Ascii.eqb Bool.eqb]. do 3 f_equal.
  change (String "#" (String.append s (String "010" B))) with (String.append (String "#" s) (String "010" B)).
  rewrite span_all; [reflexivity| |reflexivity]. cbn. exact H.
Qed.

Lemma every_span : forall p q s, every p s = true -> every p (snd (span q s)) = true.
Proof.
  intros p q s. induction s as [|c s IH]; intros H; [reflexivity|]. cbn [span]. cbn in H. pose proof H as H0. apply andb_true_iff in H. destruct H as (Hc & H).
  destruct (q c); [|exact H0]. specialize (IH H). destruct (span q s). exact IH.
Qed.

Lemma rest_of_line : forall d C B, ignorable C = true -> lx d (String.append C (String "010" B)) [] d (String "010" B).
Proof.
  intros d C B H. unfold ignorable in H. apply andb_true_iff in H. destruct H as (E & S). revert E S.
  induction C as [|c C IH]; intros E S; [constructor|]. cbn [span] in S. destruct (Ascii.eqb " " c) eqn:Hc.
  - apply Ascii.eqb_eq in Hc. subst c. cbn [String.append]. eapply lx_skip; [reflexivity|]. apply IH.
    + cbn in E. exact E.
    + destruct (span (Ascii.eqb " ") C). exact S.
  - cbn [snd next_is] in S. apply Ascii.eqb_eq in S. subst c. cbn [String.append]. eapply lx_skip; [|constructor].
    apply comment_step. cbn in E. exact E.
Qed.

Lemma skip_line : forall d C B, ignorable C = true ->
  lx d (String "010" (String.append C (String "010" B))) [] d (String "010" B).
Proof.
  intros [|d] C B H.
  - pose proof H as G. unfold ignorable in H. apply andb_true_iff in H. destruct H as (E & S).
    assert (F : span (Ascii.eqb " ") (String.append C (String "010" B)) = match snd (span (Ascii.eqb " ") C) with "" => (C, String "010" B) | _ => (fst (span (Ascii.eqb " ") C), String.append (snd (span (Ascii.eqb " ") C)) (String "010" B)) end)
      by (apply span_split; reflexivity).
    pose proof (every_span not_nl (Ascii.eqb " ") C E) as E2.
    destruct (snd (span (Ascii.eqb " ") C)) as [|c r].
    + eapply lx_skip; [unfold next; cbn [Ascii.eqb Bool.eqb]; rewrite F; reflexivity|]. constructor.
    + cbn [next_is] in S. apply Ascii.eqb_eq in S. subst c.
      eapply lx_skip; [unfold next; cbn [Ascii.eqb Bool.eqb]; rewrite F; reflexivity|].
      cbn [String.append]. eapply lx_skip; [apply comment_step; exact E2|]. constructor.
  - eapply lx_skip; [reflexivity|]. now apply rest_of_line.
Qed.

Lemma lx_line : forall C, ignorable C = true -> forall d s ts d' e, lx d s ts d' e -> e = "" ->
  forall A B, s = String.append A (String "010" B) ->
  lx d (String.append A (String "010" (String.append C (String "010" B)))) ts d' "".
Proof.
  intros C HC d s ts d' e L. induction L as [d s|d s t d1 r ts d2 r2 E L IH]; intros Q A B W; subst.
  - destruct A; discriminate.
  - destruct A as [|c A].
    + cbn [String.append] in *. change (given t ts) with ([] ++ given t ts). eapply lx_app; [apply skip_line; exact HC|].
      eapply lx_step; [exact E|exact L].
    + assert (NE : String c A <> "") by discriminate. destruct (next_line _ _ _ _ _ _ NE E) as (A2 & -> & H).
      eapply lx_step; [exact (H _)|]. apply IH; reflexivity.
Qed.

Lemma lex_lx : forall fuel d s ts, lex fuel d s = Some ts -> exists d', lx d s ts d' "".
Proof.
  induction fuel as [|fuel IH]; intros d s ts E; [discriminate E|]. cbn [lex] in E. destruct s as [|c s].
  - injection E as <-. exists d. constructor.
  - destruct (next d (String c s)) as [((t & d1) & r)|] eqn:N; [|discriminate E].
    destruct (lex fuel d1 r) as [l|] eqn:F; [|discriminate E]. cbn [option_map] in E. injection E as <-. destruct (IH _ _ _ F) as (d' & L).
    exists d'. eapply lx_step; [exact N|exact L].
Qed.

Lemma adds_lx : forall s s', adds s s' -> forall d ts d', lx d s ts d' "" -> lx d s' ts d' "".
Proof.
  intros s s' H. induction H as [|A C B H IH G]; intros d ts d' L; [exact L|].
  exact (lx_line C G _ _ _ _ _ (IH _ _ _ L) eq_refl A B eq_refl).
Qed.

Theorem adds_reads : forall s s' l, adds (String "010" s) (String "010" s') -> reads s l -> reads s' l.
Proof.
  intros s s' l H (n & R). pose proof (R n (le_n n)) as R0. unfold read_program in R0.
  destruct (lex n 0 (String "010" s)) as [ts|] eqn:E; [|discriminate R0].
  destruct (lex_lx _ _ _ _ E) as (d' & L). destruct (lx_lex _ _ _ _ L) as (m & M).
  destruct (lx_lex _ _ _ _ (adds_lx _ _ H _ _ _ L)) as (m' & M').
  exists (n + m + m'). intros fuel F. specialize (R fuel ltac:(lia)). unfold read_program in *.
  rewrite (M fuel ltac:(lia)) in R. now rewrite (M' fuel ltac:(lia)).
Qed.
