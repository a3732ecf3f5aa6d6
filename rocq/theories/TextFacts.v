(** Facts about lines, words and blanks (SpecPrinter.v) and about the text
    normalisation of the layout engine (Printer.v). *)
From Coq Require Import String Ascii List NArith Arith Bool Lia.
From Verif Require Import Base Json Printer SpecPrinter.
Import ListNotations.
Open Scope string_scope.
Open Scope list_scope.

(** ** Strings *)

Lemma app_nil_r_s : forall s, String.append s "" = s.
Proof. induction s; simpl; congruence. Qed.

Lemma app_assoc_s : forall a b c,
  String.append (String.append a b) c = String.append a (String.append b c).
Proof. induction a; simpl; intros; congruence. Qed.

Lemma slen_app : forall a b, slen (String.append a b) = (slen a + slen b)%N.
Proof. induction a; simpl; intros; [ lia | rewrite IHa; lia ]. Qed.

Lemma slen_length : forall s, slen s = N.of_nat (String.length s).
Proof. induction s; simpl; [ reflexivity | rewrite IHs; lia ]. Qed.

Lemma take_drop : forall k s, String.append (str_take k s) (str_drop k s) = s.
Proof. induction k; destruct s; simpl; try reflexivity. rewrite IHk. reflexivity. Qed.

Lemma take_drop_S : forall k s,
  space_at k s = true ->
  String.append (str_take k s) (String " " (str_drop (S k) s)) = s.
Proof.
  induction k; destruct s; simpl; intros; try discriminate.
  - apply Ascii.eqb_eq in H. subst. reflexivity.
  - rewrite IHk by exact H. reflexivity.
Qed.

Lemma str_contains_app : forall c a b,
  str_contains c (String.append a b) = (str_contains c a || str_contains c b)%bool.
Proof.
  induction a; simpl; intros; [ reflexivity |].
  destruct (Ascii.eqb c a); simpl; auto.
Qed.

(** ** Blanks *)

Lemma blank_app : forall a b, blank a -> blank b -> blank (String.append a b).
Proof. induction a; simpl; intros; [ assumption | intuition ]. Qed.

Lemma blank_app_inv : forall a b, blank (String.append a b) -> blank a /\ blank b.
Proof. induction a; simpl; intros; [ auto |]. destruct H as [H1 H2]. apply IHa in H2. tauto. Qed.

Lemma blank_spaces : forall n, blank (space_string n).
Proof. induction n; simpl; unfold blank_char; auto. Qed.

Lemma blank_nl : blank nl.
Proof. simpl. unfold blank_char. auto. Qed.

Lemma spaces_one_line : forall n, one_line (space_string n).
Proof. unfold one_line. induction n; simpl; auto. Qed.

Lemma slen_spaces : forall n, slen (space_string n) = N.of_nat n.
Proof. induction n; simpl; [ reflexivity | rewrite IHn; lia ]. Qed.

Lemma strip_app : forall a b, strip (String.append a b) = String.append (strip a) (strip b).
Proof.
  induction a; simpl; intros; [ reflexivity |].
  destruct (Ascii.eqb a " " || Ascii.eqb a "010")%bool; simpl; rewrite IHa; reflexivity.
Qed.

Lemma strip_blank : forall s, blank s -> strip s = "".
Proof.
  induction s; simpl; intros; [ reflexivity |].
  destruct H as [[-> | ->] H]; simpl; auto.
Qed.

(** ** Splitting *)

Lemma split_nonempty : forall c s, split_on c s <> [].
Proof.
  induction s; simpl; [ discriminate |].
  destruct (Ascii.eqb c a); [ discriminate |].
  destruct (split_on c s); discriminate.
Qed.

(** Gluing two lists of lines. *)
Fixpoint glue (l1 l2 : list string) : list string :=
  match l1 with
  | [] => l2
  | [x] => match l2 with [] => [x] | y :: l2 => String.append x y :: l2 end
  | x :: l1 => x :: glue l1 l2
  end.

Lemma split_app : forall c a b,
  split_on c (String.append a b) = glue (split_on c a) (split_on c b).
Proof.
  induction a; intros; simpl String.append.
  - simpl. destruct (split_on c b) eqn:E; [ destruct (split_nonempty _ _ E) | reflexivity ].
  - cbn [split_on]. destruct (Ascii.eqb c a) eqn:E.
    + rewrite IHa. destruct (split_on c a0) eqn:E2; [ destruct (split_nonempty _ _ E2) |].
      reflexivity.
    + rewrite IHa. destruct (split_on c a0) eqn:E2; [ destruct (split_nonempty _ _ E2) |].
      destruct l.
      * simpl. destruct (split_on c b) eqn:E3; [ destruct (split_nonempty _ _ E3) |].
        reflexivity.
      * reflexivity.
Qed.

Lemma split_one : forall c s, str_contains c s = false -> split_on c s = [s].
Proof.
  induction s; simpl; intros; [ reflexivity |].
  destruct (Ascii.eqb c a) eqn:E; [ discriminate |].
  rewrite IHs by exact H. reflexivity.
Qed.

Lemma split_cons : forall c a s,
  Ascii.eqb c a = false ->
  exists w ws, split_on c s = w :: ws /\ split_on c (String a s) = String a w :: ws.
Proof.
  intros. cbn [split_on]. rewrite H.
  destruct (split_on c s) eqn:E; [ destruct (split_nonempty _ _ E) |]. eauto.
Qed.

(** ** Words *)

Definition full (w : string) : bool := negb (is_empty_str w).

(** The blank-separated pieces, when every newline has become a space. *)
Definition pwords (s : string) : list string := filter full (split_on " " s).

Lemma pwords_cons_space : forall s, pwords (String " " s) = pwords s.
Proof. reflexivity. Qed.

Lemma pwords_app_space : forall a b,
  pwords (String.append a (String " " b)) = pwords a ++ pwords b.
Proof.
  unfold pwords. intros. rewrite split_app.
  replace (split_on " " (String " " b)) with ("" :: split_on " " b) by reflexivity.
  generalize (split_nonempty " " a). generalize (split_on " " a). intros l Hl.
  induction l as [| x l IH]; [ congruence |].
  destruct l.
  - simpl. rewrite app_nil_r_s. unfold full. destruct x; reflexivity.
  - change (glue (x :: s :: l) ("" :: split_on " " b))
      with (x :: glue (s :: l) ("" :: split_on " " b)).
    remember (glue (s :: l) ("" :: split_on " " b)) as q.
    remember (s :: l) as q2. cbn [filter]. rewrite IH by (subst q2; discriminate).
    destruct (full x); reflexivity.
Qed.

Lemma words_unline : forall s, words s = pwords (unline s).
Proof.
  unfold words, lines. fold full.
  intro s. change (filter (fun w => negb (is_empty_str w))) with (filter full).
  unfold pwords.
  assert (forall s, exists x xs y ys,
            split_on "010" s = x :: xs /\ split_on " " (unline s) = y :: ys /\
            split_on " " x ++ flat_map (split_on " ") xs = y :: ys) as H.
  { clear s. induction s as [| c s IH].
    - exists "", [], "", []. auto.
    - destruct IH as (x & xs & y & ys & H1 & H2 & H3).
      cbn [unline]. destruct (Ascii.eqb "010" c) eqn:E.
      + apply Ascii.eqb_eq in E. subst c.
        exists "", (x :: xs), "", (y :: ys). cbn [split_on].
        change (Ascii.eqb "010" "010") with true. cbn [Ascii.eqb]. rewrite H1.
        split; [ reflexivity |]. simpl. rewrite H2. split; [ reflexivity |]. rewrite H3. reflexivity.
      + assert (E2 : Ascii.eqb c "010" = false).
        { apply Ascii.eqb_neq. apply Ascii.eqb_neq in E. congruence. }
        rewrite E2. cbn [split_on]. rewrite E, H1.
        destruct (Ascii.eqb " " c) eqn:E3.
        * exists (String c x), xs, "", (y :: ys). rewrite H2.
          split; [ reflexivity |]. split; [ reflexivity |].
          cbn [split_on]. rewrite E3. simpl. rewrite H3. reflexivity.
        * exists (String c x), xs, (String c y), ys. rewrite H2.
          split; [ reflexivity |]. split; [ reflexivity |].
          cbn [split_on]. rewrite E3.
          destruct (split_on " " x) eqn:E4; [ destruct (split_nonempty _ _ E4) |].
          simpl in *. inversion H3. subst. reflexivity. }
  destruct (H s) as (x & xs & y & ys & H1 & H2 & H3).
  rewrite H1, H2. simpl. rewrite H3. reflexivity.
Qed.

(** ** Normalisation *)

Lemma unline_one_line : forall s, one_line (unline s).
Proof.
  unfold one_line. induction s; [ reflexivity |]. cbn [unline str_contains].
  destruct (Ascii.eqb a "010") eqn:E; [ assumption |].
  assert (Ascii.eqb "010" a = false) as ->; [| assumption ].
  apply Ascii.eqb_neq. apply Ascii.eqb_neq in E. congruence.
Qed.

Lemma unline_id : forall s, one_line s -> unline s = s.
Proof.
  unfold one_line. induction s; [ reflexivity |]. cbn [unline str_contains]. intro H.
  destruct (Ascii.eqb "010" a) eqn:E; [ discriminate |].
  assert (Ascii.eqb a "010" = false) as ->.
  { apply Ascii.eqb_neq. apply Ascii.eqb_neq in E. congruence. }
  rewrite IHs by assumption. reflexivity.
Qed.

Lemma unline_length : forall s, String.length (unline s) = String.length s.
Proof. induction s; simpl; congruence. Qed.

Lemma drop_double_spec : forall s s',
  drop_double s = Some s' ->
  S (String.length s') = String.length s /\ pwords s' = pwords s /\
  (one_line s -> one_line s').
Proof.
  induction s as [| a s IH]; [ discriminate |]. intros s' H. cbn [drop_double] in H.
  destruct s as [| b s]; [ discriminate |].
  destruct (Ascii.eqb a " " && Ascii.eqb b " ")%bool eqn:E.
  - injection H as <-. apply andb_true_iff in E. destruct E as [E1 E2].
    apply Ascii.eqb_eq in E1, E2. subst a b. repeat split.
    unfold one_line. simpl. tauto.
  - destruct (drop_double (String b s)) as [s1 |] eqn:E1; [| discriminate ].
    injection H as <-. destruct (IH s1 eq_refl) as (H1 & H2 & H3). split; [| split ].
    + cbn [String.length] in *. congruence.
    + destruct (Ascii.eqb " " a) eqn:E2.
      * apply Ascii.eqb_eq in E2. subst a. rewrite !pwords_cons_space. exact H2.
      * unfold pwords in *.
        (* the removed space is not next to a, unless s1 starts with the same word *)
        destruct (split_cons " " a s1 E2) as (w & ws & W1 & W2).
        destruct (split_cons " " a (String b s) E2) as (v & vs & V1 & V2).
        rewrite W2, V2. rewrite W1, V1 in H2. cbn [filter] in *.
        change (full (String a w)) with true. change (full (String a v)) with true.
        assert (Hh : w = v /\ filter full ws = filter full vs).
        { (* the first piece of [b s] is empty exactly when b is a space *)
          destruct (Ascii.eqb " " b) eqn:Eb.
          - apply Ascii.eqb_eq in Eb. subst b. cbn [split_on] in V1. injection V1 as <- <-.
            (* s1 also begins with a space *)
            cbn [drop_double] in E1. destruct s as [| d s]; [ discriminate |].
            destruct (Ascii.eqb " " d) eqn:Ed.
            + apply Ascii.eqb_eq in Ed. subst d.
              change (Ascii.eqb " " " " && Ascii.eqb " " " ")%bool with true in E1.
              injection E1 as <-. cbn [split_on] in W1. injection W1 as <- <-.
              split; [ reflexivity |]. cbn in H2. exact H2.
            + assert (Ascii.eqb d " " = false) as Ed2.
              { apply Ascii.eqb_neq. apply Ascii.eqb_neq in Ed. congruence. }
              rewrite Ed2 in E1. rewrite andb_false_r in E1.
              destruct (drop_double (String d s)); [| discriminate ].
              injection E1 as <-. cbn [split_on] in W1.
              change (Ascii.eqb " " " ") with true in W1. injection W1 as <- <-.
              split; [ reflexivity |]. cbn in H2. exact H2.
          - (* b is not a space: both first pieces are full *)
            assert (full v = true) as Fv.
            { destruct (split_cons " " b s Eb) as (q & qs & Q1 & Q2).
              rewrite Q2 in V1. injection V1 as <- <-. reflexivity. }
            assert (full w = true) as Fw.
            { cbn [drop_double] in E1. destruct s as [| d s]; [ discriminate |].
              assert (Ascii.eqb b " " = false) as Eb2.
              { apply Ascii.eqb_neq. apply Ascii.eqb_neq in Eb. congruence. }
              rewrite Eb2 in E1. cbn [andb] in E1.
              destruct (drop_double (String d s)); [| discriminate ].
              injection E1 as <-. destruct (split_cons " " b s0 Eb) as (q & qs & Q1 & Q2).
              rewrite Q2 in W1. injection W1 as <- <-. reflexivity. }
            rewrite Fv, Fw in H2. injection H2 as -> H2. auto. }
        destruct Hh as [-> ->]. reflexivity.
    + unfold one_line in *. cbn [str_contains] in *.
      destruct (Ascii.eqb "010" a); [ discriminate |]. exact H3.
Qed.

Lemma remove_doubles_spec : forall fuel s,
  String.length (remove_doubles fuel s) <= String.length s /\
  pwords (remove_doubles fuel s) = pwords s /\
  (one_line s -> one_line (remove_doubles fuel s)) /\
  (String.length s <= fuel -> drop_double (remove_doubles fuel s) = None).
Proof.
  induction fuel; intro s; cbn [remove_doubles].
  - repeat split; auto. intro H. destruct s; [ reflexivity | simpl in H; lia ].
  - destruct (drop_double s) as [s' |] eqn:E.
    + destruct (drop_double_spec _ _ E) as (H1 & H2 & H3).
      destruct (IHfuel s') as (I1 & I2 & I3 & I4).
      split; [ lia |]. split; [ congruence |]. split; [ auto |]. intro H. apply I4. lia.
    + repeat split; auto.
Qed.

(** No two spaces in a row. *)
Definition tidy (s : string) : Prop := drop_double s = None.

Lemma normalise_one_line : forall s, one_line (normalise s).
Proof. intro s. apply remove_doubles_spec. apply unline_one_line. Qed.

Lemma normalise_tidy : forall s, tidy (normalise s).
Proof. intro s. apply remove_doubles_spec. lia. Qed.

Lemma normalise_words : forall s, pwords (normalise s) = words s.
Proof.
  intro s. unfold normalise. rewrite words_unline. apply remove_doubles_spec.
Qed.

Lemma normalise_length : forall s, String.length (normalise s) <= String.length s.
Proof.
  intro s. unfold normalise.
  destruct (remove_doubles_spec (String.length (unline s)) (unline s)) as (H & _).
  rewrite (unline_length s) in *. exact H.
Qed.

Lemma remove_doubles_tidy : forall fuel s, tidy s -> remove_doubles fuel s = s.
Proof. intros [| fuel] s H; simpl; [ reflexivity |]. rewrite H. reflexivity. Qed.

Lemma normalise_id : forall s, one_line s -> tidy s -> normalise s = s.
Proof.
  intros. unfold normalise. rewrite unline_id by assumption.
  apply remove_doubles_tidy. assumption.
Qed.

Lemma words_one_line : forall s, one_line s -> words s = pwords s.
Proof. intros. rewrite words_unline, unline_id by assumption. reflexivity. Qed.

(** Parts of a one-line, tidy text are one-line and tidy. *)
Lemma one_line_app : forall a b, one_line (String.append a b) -> one_line a /\ one_line b.
Proof.
  unfold one_line. intros. rewrite str_contains_app in H. apply orb_false_iff in H. exact H.
Qed.

Lemma tidy_tail : forall c s, tidy (String c s) -> tidy s.
Proof.
  unfold tidy. intros c s H. cbn [drop_double] in H.
  destruct s as [| b s]; [ reflexivity |].
  destruct (Ascii.eqb c " " && Ascii.eqb b " ")%bool; [ discriminate |].
  destruct (drop_double (String b s)); [ discriminate | reflexivity ].
Qed.

Lemma tidy_drop : forall k s, tidy s -> tidy (str_drop k s).
Proof.
  induction k; destruct s; simpl; intros; auto. apply IHk. eapply tidy_tail. eassumption.
Qed.

Lemma one_line_drop : forall k s, one_line s -> one_line (str_drop k s).
Proof. intros. rewrite <- (take_drop k s) in H. apply one_line_app in H. tauto. Qed.

Lemma one_line_take : forall k s, one_line s -> one_line (str_take k s).
Proof. intros. rewrite <- (take_drop k s) in H. apply one_line_app in H. tauto. Qed.

Lemma tidy_rest : forall k s, tidy s -> tidy (rest_from k s).
Proof. intros. unfold rest_from. destruct (space_at k s); apply tidy_drop; assumption. Qed.

Lemma one_line_rest : forall k s, one_line s -> one_line (rest_from k s).
Proof. intros. unfold rest_from. destruct (space_at k s); apply one_line_drop; assumption. Qed.

(** ** Where a text is broken *)

(** The scan stops at 0 or just after a space, not beyond the bytes scanned. *)
Lemma word_scan_spec : forall n s i prev start,
  let j := word_scan n i prev start s in
  j = start \/ (prev = true /\ j = i /\ n <> 0) \/
  (i < j /\ j < i + n /\ space_at (j - i - 1) s = true).
Proof.
  induction n; intros s i prev start; [ left; reflexivity |].
  destruct s as [| c s]; [ left; reflexivity |].
  cbn [word_scan]. destruct (Ascii.eqb c " ") eqn:E.
  - destruct (IHn s (S i) true start) as [H | [(H1 & H2 & H3) | (H1 & H2 & H3)]]; cbv zeta.
    + left. exact H.
    + right. right. rewrite H2. split; [ lia |]. split; [ lia |].
      replace (S i - i - 1) with 0 by lia. simpl. exact E.
    + right. right. split; [ lia |]. split; [ lia |].
      set (j := word_scan n (S i) true start s) in *.
      replace (j - i - 1) with (S (j - S i - 1)) by lia. exact H3.
  - destruct (IHn s (S i) false (if prev then i else start))
      as [H | [(H1 & H2 & H3) | (H1 & H2 & H3)]]; cbv zeta.
    + destruct prev.
      * right. left. rewrite H. auto.
      * left. exact H.
    + discriminate.
    + right. right. split; [ lia |]. split; [ lia |].
      set (j := word_scan n (S i) false (if prev then i else start) s) in *.
      replace (j - i - 1) with (S (j - S i - 1)) by lia. exact H3.
Qed.

Lemma break_at_spec : forall left t,
  let k := break_at left t in
  (k = left /\ space_at k t = true) \/ k = 0 \/
  (0 < k /\ k < left /\ space_at (k - 1) t = true).
Proof.
  intros left t. unfold break_at. cbv zeta. destruct (space_at left t) eqn:E; [ auto |].
  right. destruct (word_scan_spec left t 0 false 0) as [H | [(H1 & _) | (H1 & H2 & H3)]].
  - left. exact H.
  - discriminate.
  - right. rewrite Nat.sub_0_r in H3. repeat split; [ lia | lia | exact H3 ].
Qed.

(** Cutting just after a space. *)
Lemma pwords_take_S : forall k t,
  space_at k t = true -> pwords (str_take (S k) t) = pwords (str_take k t).
Proof.
  intros k t H.
  assert (str_take (S k) t = String.append (str_take k t) (String " " "")) as ->.
  { revert t H. induction k; destruct t; simpl; intros; try discriminate.
    - apply Ascii.eqb_eq in H. subst. reflexivity.
    - rewrite <- IHk by exact H. reflexivity. }
  rewrite pwords_app_space. simpl. rewrite app_nil_r. reflexivity.
Qed.

Lemma pwords_cut : forall k t,
  space_at k t = true -> pwords t = pwords (str_take k t) ++ pwords (str_drop (S k) t).
Proof.
  intros. rewrite <- (take_drop_S k t H) at 1. apply pwords_app_space.
Qed.

Lemma rest_words : forall left t,
  let k := break_at left t in
  pwords t = pwords (str_take k t) ++ pwords (rest_from k t).
Proof.
  intros left t. cbv zeta. generalize (break_at_spec left t). cbv zeta.
  generalize (break_at left t). intros k D. unfold rest_from.
  destruct (space_at k t) eqn:E; [ apply pwords_cut; exact E |].
  destruct D as [[H1 H2] | [H | (H1 & H2 & H3)]].
  - congruence.
  - rewrite H. reflexivity.
  - rewrite (pwords_cut (k - 1) t H3).
    replace (str_take k t) with (str_take (S (k - 1)) t) by (f_equal; lia).
    rewrite pwords_take_S by exact H3.
    replace (S (k - 1)) with k by lia. reflexivity.
Qed.
