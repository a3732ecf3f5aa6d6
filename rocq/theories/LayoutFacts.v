(** What the layout engine (Printer.v) writes for tokens, spaces and newlines:
    the proofs behind C43 and C44. *)
From Coq Require Import String Ascii List NArith Arith Bool Lia.
From Verif Require Import Base Json Printer SpecPrinter TextFacts.
Import ListNotations.
Open Scope string_scope.
Open Scope list_scope.

Lemma and_print_ok : forall r f o st',
  r ;;; f = Ok (o, st') ->
  exists a s b, r = Ok (a, s) /\ f s = Ok (b, st') /\ o = String.append a b.
Proof.
  intros r f o st' H. unfold and_print in H.
  destruct r as [[a s] | | |]; try discriminate. simpl in H.
  destruct (f s) as [[b s'] | | |] eqn:E; try discriminate. simpl in H.
  injection H as <- <-. eauto 6.
Qed.

Lemma and_print_intro : forall r f a s b st',
  r = Ok (a, s) -> f s = Ok (b, st') -> r ;;; f = Ok (String.append a b, st').
Proof. intros. unfold and_print. rewrite H. simpl. rewrite H0. reflexivity. Qed.

(** ** Shapes *)

Lemma write_indent_ok : forall g st,
  write_indent g st
  = Ok (indent_string g st, PState (p_row st) (p_col st + indent_length g st) (p_ind st)).
Proof.
  intros. unfold write_indent. unfold indent_string at 1.
  destruct (N.to_nat (indent_length g st)) as [| n] eqn:E.
  - assert (indent_length g st = 0%N) as Z by lia. unfold indent_string. rewrite E, Z.
    rewrite N.add_0_r. destruct st. reflexivity.
  - simpl. unfold write_basic, indent_string. rewrite slen_spaces, N2Nat.id. reflexivity.
Qed.

Lemma newline_indent_ok : forall g st,
  write_newline st ;;; write_indent g
  = Ok (String.append nl (indent_string g st),
        PState (p_row st + 1) (1 + indent_length g st) (p_ind st)).
Proof.
  intros. unfold write_newline. eapply and_print_intro; [ reflexivity |].
  rewrite write_indent_ok. reflexivity.
Qed.

Lemma indent_string_blank : forall g st, blank (indent_string g st).
Proof. intros. apply blank_spaces. Qed.

(** Where the token goes: the blanks before it and the column it starts at. *)
Definition token_lead (g : geo) (len : N) (st : pstate) : string * N :=
  if (g_page g <? p_col st)%N then
    if (g_page g <? len)%N then
      if (indent_length g st <? 1)%N
      then (String.append nl (String.append nl (indent_string g st)), (1 + indent_length g st)%N)
      else (nl, 1%N)
    else if (g_page g - 1 <? len)%N
      then (String.append nl (String.append nl (indent_string g st)), (1 + indent_length g st)%N)
      else (nl, 1%N)
  else
    if (g_page g <? len)%N then
      if (indent_length g st <? p_col st)%N
      then (String.append nl (indent_string g st), (1 + indent_length g st)%N)
      else ("", p_col st)
    else if (g_page g - p_col st <? len)%N
      then (String.append nl (indent_string g st), (1 + indent_length g st)%N)
      else ("", p_col st).

Lemma write_token_ok : forall g s st,
  (0 < g_page g)%N ->
  exists row,
    write_token g s st
    = Ok (String.append (fst (token_lead g (slen s) st)) s,
          PState row (snd (token_lead g (slen s) st) + slen s) (p_ind st)).
Proof.
  intros g s st Hp. unfold write_token, token_lead.
  assert (Hnl : forall st, write_newline st = Ok (nl, PState (p_row st + 1) 1 (p_ind st)))
    by reflexivity.
  assert (Hu : forall c, (c <= g_page g)%N -> usub g (g_page g) c = Ok (g_page g - c)%N).
  { intros c Hc. unfold usub. replace (c <=? g_page g)%N with true; [ reflexivity |].
    symmetry. apply N.leb_le. exact Hc. }
  destruct (g_page g <? p_col st)%N eqn:E1.
  - rewrite Hnl. unfold and_print at 1. cbn [bind p_col p_ind].
    rewrite (Hu 1%N) by lia.
    change (indent_length g (PState (p_row st + 1) 1 (p_ind st))) with (indent_length g st).
    destruct (g_page g <? slen s)%N.
    + destruct (indent_length g st <? 1)%N.
      * rewrite newline_indent_ok. cbn [and_print bind write_basic]. eexists. cbn [fst snd].
        rewrite !app_assoc_s. reflexivity.
      * cbn [and_print bind write_basic]. eexists. reflexivity.
    + cbn [bind]. destruct (g_page g - 1 <? slen s)%N.
      * rewrite newline_indent_ok. cbn [and_print bind write_basic]. eexists. cbn [fst snd].
        rewrite !app_assoc_s. reflexivity.
      * cbn [and_print bind write_basic]. eexists. reflexivity.
  - unfold and_print at 1. cbn [bind].
    rewrite (Hu (p_col st)) by (apply N.ltb_ge; exact E1).
    destruct (g_page g <? slen s)%N.
    + destruct (indent_length g st <? p_col st)%N.
      * rewrite newline_indent_ok. cbn [and_print bind write_basic]. eexists. reflexivity.
      * cbn [and_print bind write_basic]. eexists. reflexivity.
    + cbn [bind]. destruct (g_page g - p_col st <? slen s)%N.
      * rewrite newline_indent_ok. cbn [and_print bind write_basic]. eexists. reflexivity.
      * cbn [and_print bind write_basic]. eexists. reflexivity.
Qed.

Lemma blank_lead1 : forall g st, blank (String.append nl (indent_string g st)).
Proof. intros. apply blank_app; [ apply blank_nl | apply indent_string_blank ]. Qed.

Lemma token_lead_blank : forall g n st, blank (fst (token_lead g n st)).
Proof.
  intros. unfold token_lead.
  repeat match goal with |- context [if ?b then _ else _] => destruct b end; cbn [fst];
    first [ exact I | apply blank_nl | apply blank_lead1
          | apply blank_app; [ apply blank_nl | apply blank_lead1 ] ].
Qed.

(** When a token is written at all, it is written whole, after blanks only. *)
Lemma write_token_shape : forall g s st o st',
  write_token g s st = Ok (o, st') ->
  (exists w, blank w /\ o = String.append w s) /\ p_ind st' = p_ind st.
Proof.
  intros g s st o st' H. destruct (N.eq_dec (g_page g) 0) as [Hp | Hp].
  - unfold write_token in H. rewrite Hp in H.
    apply and_print_ok in H. destruct H as (a & s1 & b & H1 & H2 & ->).
    assert (blank a /\ p_ind s1 = p_ind st) as [Ha Hi].
    { destruct (0 <? p_col st)%N; [ unfold write_newline in H1 |];
        injection H1 as <- <-; (split; [| reflexivity ]); [ apply blank_nl | exact I ]. }
    destruct (0 <? slen s)%N.
    + destruct (indent_length g s1 <? p_col s1)%N.
      * apply and_print_ok in H2. destruct H2 as (a2 & s2 & b2 & H2 & H3 & ->).
        rewrite newline_indent_ok in H2. injection H2 as <- <-.
        unfold write_basic in H3. injection H3 as <- <-. cbn [p_ind].
        split; [| assumption ].
        exists (String.append a (String.append nl (indent_string g s1))).
        split; [ apply blank_app; [ assumption | apply blank_lead1 ] |].
        rewrite !app_assoc_s. reflexivity.
      * unfold write_basic in H2. injection H2 as <- <-. eauto.
    + destruct (usub g 0 (p_col s1)) as [left | | |]; try discriminate. cbn [bind] in H2.
      apply and_print_ok in H2. destruct H2 as (a2 & s2 & b2 & H2 & H3 & ->).
      unfold write_basic in H3. injection H3 as <- <-. cbn [p_ind].
      destruct (left <? slen s)%N.
      * rewrite newline_indent_ok in H2. injection H2 as <- <-. split; [| assumption ].
        exists (String.append a (String.append nl (indent_string g s1))).
        split; [ apply blank_app; [ assumption | apply blank_lead1 ] |].
        rewrite !app_assoc_s. reflexivity.
      * injection H2 as <- <-. split; [| assumption ]. exists a. auto.
  - destruct (write_token_ok g s st) as (row & E); [ lia |]. rewrite E in H.
    injection H as <- <-. split; [| reflexivity ].
    eexists. split; [ apply token_lead_blank | reflexivity ].
Qed.

Lemma write_space_ok : forall g st,
  exists w st', write_space g st = Ok (String.append w " ", st') /\ blank w /\
    p_ind st' = p_ind st /\
    ((p_col st = g_page g /\ w = String.append nl (indent_string g st) /\
      p_col st' = (2 + indent_length g st)%N) \/
     (p_col st <> g_page g /\ w = "" /\ p_col st' = (p_col st + 1)%N)).
Proof.
  intros. unfold write_space. destruct (p_col st =? g_page g)%N eqn:E.
  - apply N.eqb_eq in E. eexists _, _.
    split; [ apply and_print_intro with (1 := newline_indent_ok g st); reflexivity |].
    split; [ apply blank_lead1 |]. split; [ reflexivity |]. left.
    split; [ assumption |]. split; [ reflexivity |]. cbn. lia.
  - apply N.eqb_neq in E. eexists "", _.
    split; [ eapply and_print_intro; reflexivity |].
    split; [ exact I |]. split; [ reflexivity |]. right. auto.
Qed.

(** ** C43: only blanks between the tokens *)

Lemma interleaved_blank : forall w ts s,
  blank w -> interleaved ts s -> interleaved ts (String.append w s).
Proof.
  intros w ts s Hw H. inversion H; subst.
  - constructor. apply blank_app; assumption.
  - rewrite <- app_assoc_s. constructor; [ apply blank_app |]; assumption.
Qed.

Lemma exec_interleaved : forall g l st o st',
  plain l -> exec g l st = Ok (o, st') -> interleaved (tokens l) o.
Proof.
  induction l as [| c l IH]; intros st o st' Hp H.
  - injection H as <- <-. constructor. exact I.
  - inversion Hp as [| ? ? Hc Hl]; subst. cbn [exec] in H.
    apply and_print_ok in H. destruct H as (a & s & b & H1 & H2 & ->).
    specialize (IH _ _ _ Hl H2). unfold tokens. cbn [flat_map]. fold (tokens l).
    destruct c; cbn [exec1] in H1; cbn [app]; try contradiction.
    + apply write_token_shape in H1. destruct H1 as [(w & Hw & ->) _].
      rewrite app_assoc_s. constructor; assumption.
    + destruct (write_space_ok g st) as (w & s' & E & Hw & _). rewrite E in H1.
      injection H1 as <- <-. apply interleaved_blank; [| exact IH ].
      apply blank_app; [ assumption | simpl; unfold blank_char; auto ].
    + injection H1 as <- <-. apply interleaved_blank; [ apply blank_nl | exact IH ].
    + rewrite write_indent_ok in H1. injection H1 as <- <-.
      apply interleaved_blank; [ apply indent_string_blank | exact IH ].
    + injection H1 as <- <-. exact IH.
    + injection H1 as <- <-. exact IH.
Qed.

Lemma exec_plain_ok : forall g l st,
  plain l -> (0 < g_page g)%N -> exists o st', exec g l st = Ok (o, st').
Proof.
  induction l as [| c l IH]; intros st Hp Hg.
  - eexists _, _. reflexivity.
  - inversion Hp as [| ? ? Hc Hl]; subst. cbn [exec].
    assert (exists a s, exec1 g c st = Ok (a, s)) as (a & s & E).
    { destruct c; try contradiction; cbn [exec1].
      - destruct (write_token_ok g s st Hg) as (row & E). rewrite E. eauto.
      - destruct (write_space_ok g st) as (w & s' & E & _). rewrite E. eauto.
      - eexists _, _. reflexivity.
      - rewrite write_indent_ok. eauto.
      - eexists _, _. reflexivity.
      - eexists _, _. reflexivity. }
    destruct (IH s Hl Hg) as (b & s' & E2).
    rewrite (and_print_intro _ _ _ _ _ _ E E2). eauto.
Qed.

Lemma interleaved_strip : forall ts s,
  interleaved ts s -> strip s = fold_right String.append "" (map strip ts).
Proof.
  induction 1; simpl.
  - apply strip_blank. assumption.
  - rewrite !strip_app, strip_blank, IHinterleaved by assumption. reflexivity.
Qed.

(** ** C44: line widths *)

(** With [c] bytes already on the line, no line of [s] is wider than [w]. *)
Fixpoint within (w c : N) (s : string) : Prop :=
  match s with
  | EmptyString => (c <= w)%N
  | String a s => if Ascii.eqb "010" a then (c <= w)%N /\ within w 0 s else within w (c + 1) s
  end.

(** The bytes on the last line. *)
Fixpoint last_col (c : N) (s : string) : N :=
  match s with
  | EmptyString => c
  | String a s => if Ascii.eqb "010" a then last_col 0 s else last_col (c + 1) s
  end.

Lemma within_app : forall w a c b,
  within w c a -> within w (last_col c a) b -> within w c (String.append a b).
Proof.
  induction a; cbn [within last_col String.append]; intros c b H1 H2; [ exact H2 |].
  destruct (Ascii.eqb "010" a); [ destruct H1; split |]; auto.
Qed.

Lemma last_col_app : forall a c b, last_col c (String.append a b) = last_col (last_col c a) b.
Proof.
  induction a; cbn [last_col String.append]; intros; [ reflexivity |].
  destruct (Ascii.eqb "010" a); apply IHa.
Qed.

Lemma within_token : forall w s c, (c + slen s <= w)%N -> within w c s.
Proof.
  induction s; cbn [within slen]; intros c H; [ lia |].
  destruct (Ascii.eqb "010" a); [ split; [ lia |] |]; apply IHs; lia.
Qed.

Lemma last_col_token : forall s c, (last_col c s <= c + slen s)%N.
Proof.
  induction s; cbn [last_col slen]; intros c; [ lia |].
  destruct (Ascii.eqb "010" a); [ specialize (IHs 0%N) | specialize (IHs (c + 1)%N) ]; lia.
Qed.

Lemma within_lines : forall w s c before,
  within w c s -> slen before = c -> one_line before ->
  Forall (fun ln => (slen ln <= w)%N) (lines (String.append before s)).
Proof.
  unfold lines, one_line. induction s as [| a s IH]; intros c before H Hc Hb; cbn [within] in H.
  - rewrite app_nil_r_s, split_one by assumption. constructor; [ lia | constructor ].
  - destruct (Ascii.eqb "010" a) eqn:E.
    + destruct H as [H1 H2]. apply Ascii.eqb_eq in E. subst a.
      rewrite split_app, split_one by assumption. cbn [split_on].
      change (Ascii.eqb "010" "010") with true. cbn iota. cbn [glue].
      rewrite app_nil_r_s. constructor; [ lia |].
      apply (IH 0%N ""); auto.
    + replace (String.append before (String a s))
        with (String.append (String.append before (String a "")) s)
        by (rewrite app_assoc_s; reflexivity).
      eapply IH; [ exact H | rewrite slen_app; simpl; lia |].
      rewrite str_contains_app, Hb. cbn [str_contains]. rewrite E. reflexivity.
Qed.

(** The column the printer believes in is never behind the real one. *)
Definition col_ok (g : geo) (bol : bool) (c : N) (st : pstate) : Prop :=
  (c + 1 <= p_col st)%N /\ (p_col st <= g_page g)%N /\ (bol = true -> p_col st = 1%N).

Lemma spaces_col : forall n c, last_col c (space_string n) = (c + N.of_nat n)%N.
Proof.
  induction n; intro c; [ simpl; lia |]. change (space_string (S n)) with (String " " (space_string n)).
  cbn [last_col]. change (Ascii.eqb "010" " ") with false. cbn iota. rewrite IHn. lia.
Qed.

Lemma indent_col : forall g st c,
  last_col c (String.append nl (indent_string g st)) = indent_length g st.
Proof.
  intros. rewrite last_col_app. cbn [nl last_col].
  change (Ascii.eqb "010" "010") with true. cbn iota. unfold indent_string.
  rewrite spaces_col, N2Nat.id. lia.
Qed.

Lemma indent_within : forall g st c w,
  (c <= w)%N -> (indent_length g st <= w)%N ->
  within w c (String.append nl (indent_string g st)).
Proof.
  intros. apply within_app.
  - cbn [nl within]. change (Ascii.eqb "010" "010") with true. cbn iota. split; [ lia |].
    cbn. lia.
  - apply within_token. cbn [nl last_col]. change (Ascii.eqb "010" "010") with true. cbn iota.
    unfold indent_string. rewrite slen_spaces. lia.
Qed.

Lemma token_width : forall g s st c bol,
  col_ok g bol c st -> (p_ind st * g_tab g + slen s < g_page g)%N ->
  exists o st', write_token g s st = Ok (o, st') /\
    within (g_page g - 1) c o /\ p_ind st' = p_ind st /\
    col_ok g false (last_col c o) st'.
Proof.
  intros g s st c bol (H1 & H2 & H3) Hf.
  destruct (write_token_ok g s st) as (row & E); [ lia |].
  eexists _, _. split; [ exact E |].
  unfold token_lead.
  replace (g_page g <? p_col st)%N with false by (symmetry; apply N.ltb_ge; lia).
  replace (g_page g <? slen s)%N with false by (symmetry; apply N.ltb_ge; lia).
  destruct (g_page g - p_col st <? slen s)%N eqn:E1; cbn [fst snd].
  - assert (Hi : (indent_length g st = p_ind st * g_tab g)%N) by reflexivity.
    split; [| split; [ reflexivity |] ].
    + apply within_app; [ apply indent_within; lia |]. rewrite indent_col.
      apply within_token. lia.
    + rewrite last_col_app, indent_col. unfold col_ok. cbn [p_col].
      pose proof (last_col_token s (indent_length g st)). split; [ lia |]. split; [ lia |].
      discriminate.
  - apply N.ltb_ge in E1. cbn [String.append]. split; [ apply within_token; lia |].
    split; [ reflexivity |]. pose proof (last_col_token s c).
    unfold col_ok. cbn [p_col]. split; [ lia |]. split; [ lia | discriminate ].
Qed.

Lemma exec_within : forall g l bol c st o st',
  fits g bol (p_ind st) l -> col_ok g bol c st ->
  exec g l st = Ok (o, st') -> within (g_page g - 1) c o.
Proof.
  induction l as [| x l IH]; intros bol c st o st' Hf Hc H.
  - injection H as <- <-. destruct Hc as (H1 & H2 & _). cbn. lia.
  - cbn [exec] in H. apply and_print_ok in H. destruct H as (a & s & b & H1 & H2 & ->).
    destruct x; cbn [exec1] in H1; cbn [fits] in Hf; try contradiction.
    + destruct Hf as [Hf1 Hf2].
      destruct (token_width g s0 st c bol Hc Hf1) as (o1 & s1 & E & Hw & Hi & Hc').
      rewrite E in H1. injection H1 as <- <-. apply within_app; [ assumption |].
      eapply IH; [| exact Hc' | exact H2 ]. rewrite Hi. exact Hf2.
    + destruct Hf as [Hf1 Hf2].
      destruct (write_space_ok g st) as (w & s' & E & Hw & Hi & Hcase). rewrite E in H1.
      injection H1 as <- <-. rewrite <- Hi in Hf2.
      destruct Hc as (C1 & C2 & C3).
      assert (Hil : (indent_length g st = p_ind st * g_tab g)%N) by reflexivity.
      apply within_app.
      * apply within_app.
        -- destruct Hcase as [(_ & -> & _) | (_ & -> & _)]; [ apply indent_within; lia |].
           cbn. lia.
        -- apply within_token. cbn [slen].
           destruct Hcase as [(_ & -> & _) | (D & -> & _)]; [ rewrite indent_col; lia |].
           cbn [last_col]. lia.
      * eapply IH; [ exact Hf2 | | exact H2 ].
        rewrite last_col_app. cbn [last_col]. change (Ascii.eqb "010" " ") with false. cbn iota.
        unfold col_ok.
        destruct Hcase as [(_ & -> & ->) | (D & -> & ->)].
        -- rewrite indent_col. split; [ lia |]. split; [ lia | discriminate ].
        -- cbn [last_col]. split; [ lia |]. split; [ lia | discriminate ].
    + injection H1 as <- <-. destruct Hc as (C1 & C2 & C3). apply within_app.
      * cbn [nl within]. change (Ascii.eqb "010" "010") with true. cbn iota. cbn. lia.
      * eapply IH; [| | exact H2 ]; [ exact Hf |]. cbn. unfold col_ok. cbn. lia.
    + destruct Hf as (-> & Hf1 & Hf2). destruct Hc as (C1 & C2 & C3).
      specialize (C3 eq_refl). rewrite write_indent_ok in H1. injection H1 as <- <-.
      assert (Hil : (indent_length g st = p_ind st * g_tab g)%N) by reflexivity.
      assert (c = 0%N) by lia. subst c. apply within_app.
      * apply within_token. unfold indent_string. rewrite slen_spaces. lia.
      * eapply IH; [| | exact H2 ]; [ exact Hf2 |]. unfold indent_string. rewrite spaces_col.
        unfold col_ok. cbn [p_col]. split; [ lia |]. split; [ lia | discriminate ].
    + injection H1 as <- <-. cbn [String.append]. eapply IH; [| | exact H2 ].
      * cbn [increase_indent p_ind]. exact Hf.
      * exact Hc.
    + injection H1 as <- <-. cbn [String.append]. eapply IH; [| | exact H2 ].
      * cbn [decrease_indent p_ind]. exact Hf.
      * exact Hc.
Qed.

Lemma line_widths : forall g l bol st o st' before,
  fits g bol (p_ind st) l ->
  (p_col st <= g_page g)%N -> (bol = true -> p_col st = 1%N) ->
  one_line before -> (slen before + 1 = p_col st)%N ->
  exec g l st = Ok (o, st') ->
  Forall (fun ln => (slen ln < g_page g)%N) (lines (String.append before o)).
Proof.
  intros g l bol st o st' before Hf Hc Hb Ho Hl H.
  assert (W : within (g_page g - 1) (slen before) o).
  { eapply exec_within; [ exact Hf | | exact H ]. unfold col_ok. split; [ lia |]. auto. }
  pose proof (within_lines _ _ _ _ W eq_refl Ho) as F.
  eapply Forall_impl; [| exact F ]. cbn. intros. lia.
Qed.
