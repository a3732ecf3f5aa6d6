(** Whole programs with documentation: the text is that of the program with
    comments inserted between lines, and it has the tokens of the program. *)
From Coq Require Import String Ascii List NArith ZArith Bool Lia.
From Verif Require Import Base Json JsonFacts Printer SolPrinter SpecPrinter SpecVyText SpecSolText SpecSolRead SpecDoc
  TextFacts LayoutFacts FlowFacts EmitFacts SolEmit PrintFacts VyNoteExec SolText SolReadLex SolNoteLex DocFacts.
Import ListNotations.
Open Scope string_scope.
Open Scope list_scope.

(** ** Texts *)

(** Before a line end, [C] adds no tokens. *)
Definition dropped (C : string) : Prop := forall s ts, lexes s ts -> lexes (String.append C (String "010" s)) ts.

(** [wv b s s']: [s'] is [s] with comments, each with a line end, inserted after
    line ends (and at the front, when [b]). *)
Inductive wv : bool -> string -> string -> Prop :=
| wv_nil b : wv b "" ""
| wv_char b c s s' : wv (Ascii.eqb c "010") s s' -> wv b (String c s) (String c s')
| wv_doc C s s' : dropped C -> wv true s s' -> wv true s (String.append C (String "010" s')).

Lemma wv_more : forall b s s', wv b s s' -> wv true s s'.
Proof. intros b s s' H. destruct H; [constructor|now constructor|now apply wv_doc]. Qed.
Lemma wv_any : forall b s s', wv false s s' -> wv b s s'.
Proof. intros [|] s s' H; [exact (wv_more _ _ _ H)|exact H]. Qed.
Lemma wv_refl : forall s b, wv b s s.
Proof. induction s as [|c s IH]; intros b; constructor. apply IH. Qed.
Lemma wv_app : forall a b s s', wv false s s' -> wv b (String.append a s) (String.append a s').
Proof. induction a as [|c a IH]; intros b s s' H; [now apply wv_any|]. cbn [String.append]. constructor. now apply IH. Qed.

(** ** Tokens *)

Lemma given_app : forall (t : option token) a b, given t (a ++ b) = given t a ++ b.
Proof. intros [t|] a b; reflexivity. Qed.

Lemma lexes_step : forall s t r ts, next s = Some (t, r) -> lexes r ts -> lexes s (given t ts).
Proof.
  intros s t r ts E (f & H). exists (Datatypes.S f). destruct s as [|c s]; [discriminate E|]. cbn [lex]. rewrite E, H. reflexivity.
Qed.

(** The first line of a text, and any other text after it. *)
Lemma lx_first : forall s ts e, lx s ts e -> e = "" -> forall A B, s = String.append A (String "010" B) ->
  exists ta tb, ts = ta ++ tb /\ lx B tb "" /\ forall X tx, lexes X tx -> lexes (String.append A (String "010" X)) (ta ++ tx).
Proof.
  intros s ts e L. induction L as [s|s t r ts r2 E O L IH]; intros Q A B W; subst.
  - destruct A; discriminate.
  - destruct A as [|c A].
    + cbn [String.append] in *. cbn in E. injection E as <- <-. exists [], ts. split; [reflexivity|]. split; [exact L|].
      intros X tx H. exact (lexes_step (String "010" X) None X tx eq_refl H).
    + destruct (next_line (String c A) B t r ltac:(discriminate) O E) as (A2 & -> & K).
      destruct (IH eq_refl A2 B eq_refl) as (ta & tb & -> & L2 & M). exists (given t ta), tb. split; [apply given_app|]. split; [exact L2|].
      intros X tx H. rewrite <- given_app. exact (lexes_step _ _ _ _ (proj2 (K X)) (M X tx H)).
Qed.

Lemma lx_lexes : forall s ts, lx s ts "" -> lexes s ts.
Proof. intros s ts L. destruct (lx_lex s ts L) as (N & H). exists N. now apply H. Qed.

Lemma skipped_dropped : forall C, skipped C -> dropped C.
Proof.
  intros C (w & o & W & -> & K) s ts H. rewrite app_assoc_s, <- (lexes_blank w _ W ts), <- (lexes_skip _ _ (K _) ts).
  now apply (lexes_step (String "010" s) None s ts).
Qed.

Lemma wv_lexes : forall b s s', wv b s s' -> forall A ts, (b = true -> A = "") ->
  lx (String.append A s) ts "" -> lexes (String.append A s') ts.
Proof.
  intros b s s' H. induction H as [b|b c s s' H IH|C s s' K H IH]; intros A ts Z L.
  - now apply lx_lexes.
  - destruct (Ascii.eqb c "010") eqn:E.
    + apply Ascii.eqb_eq in E. subst c. destruct (lx_first _ _ _ L eq_refl A s eq_refl) as (ta & tb & -> & L2 & M).
      apply M. exact (IH "" tb (fun _ => eq_refl) L2).
    + specialize (IH (String.append A (String c "")) ts ltac:(discriminate)). rewrite !app_assoc_s in IH. exact (IH L).
  - rewrite (Z eq_refl) in *. cbn [String.append] in *. apply K. exact (IH "" ts (fun _ => eq_refl) L).
Qed.

(** ** Requests *)

Definition is_newline (x : cmd) : bool := match x with Newline => true | _ => false end.

(** [docced b l l']: documentation is written after some of the indentations
    that follow a line end (or stand in front, when [b]). *)
Inductive docced : bool -> list cmd -> list cmd -> Prop :=
| dc_nil b : docced b [] []
| dc_same b x l l' : docced (is_newline x) l l' -> docced b (x :: l) (x :: l')
| dc_doc c d text l l' : doc_node text d -> ~ closes_comment text -> docced true (Indent :: l) (Indent :: l') ->
    docced true (Indent :: l) (Indent :: sol_emit c d ++ Newline :: Indent :: l').

Lemma docced_any : forall b l l', docced false l l' -> docced b l l'.
Proof.
  intros b l l' H. remember false as x eqn:E. destruct H as [x|x y l l' H|c d text l l' N C H]; [constructor|now constructor|discriminate E].
Qed.
Lemma docced_refl : forall l b, docced b l l.
Proof. induction l as [|x l IH]; intros b; constructor. apply IH. Qed.
Lemma docced_pre : forall a b l l', docced false l l' -> docced b (a ++ l) (a ++ l').
Proof. induction a as [|x a IH]; intros b l l' H; [now apply docced_any|]. cbn [app]. constructor. now apply IH. Qed.
Lemma docced_app : forall b a a', docced b a a' -> forall k k', docced false k k' -> docced b (a ++ k) (a' ++ k').
Proof.
  intros b a a' H. induction H as [b|b x l l' H IH|c d text l l' N C H IH]; intros k k' K.
  - now apply docced_any.
  - cbn [app]. constructor. now apply IH.
  - specialize (IH k k' K). cbn [app] in *. rewrite <- app_assoc. cbn [app]. exact (dc_doc c d text _ _ N C IH).
Qed.
Lemma docced_newline : forall a b l l', docced true l l' -> docced b (a ++ Newline :: l) (a ++ Newline :: l').
Proof. induction a as [|x a IH]; intros b l l' H; cbn [app]; constructor; [exact H|now apply IH]. Qed.

Lemma same_sym : forall a b, same a b -> same b a.
Proof. intros a b (A & B). now split. Qed.

Lemma forget_exec1 : forall g x a b, same a b -> forget (exec1 g x a) = forget (exec1 g x b).
Proof.
  intros g x a b H. destruct x; cbn [exec1].
  - now apply forget_token.
  - unfold write_space. destruct H as (E & I). rewrite E. destruct (p_col b =? g_page g)%N.
    + apply forget_and_print; [|intros; now apply forget_basic]. apply forget_and_print; [apply forget_newline; now split|intros; now apply forget_indent].
    + apply forget_and_print; [apply forget_skip; now split|intros; now apply forget_basic].
  - now apply forget_newline.
  - now apply forget_indent.
  - apply forget_skip. destruct H as (E & I). unfold increase_indent, same. cbn [p_col p_ind]. now rewrite E, I.
  - apply forget_skip. destruct H as (E & I). unfold decrease_indent, same. cbn [p_col p_ind]. now rewrite E, I.
  - now apply forget_flow.
  - match goal with |- forget (bind ?m _) = _ => destruct m as [(t, s)| | |] end; cbn [bind]; try reflexivity. now apply forget_flow.
  - reflexivity.
Qed.

Lemma forget_ok : forall r1 r2 o s, forget r1 = forget r2 -> r1 = Ok (o, s) -> exists s2, r2 = Ok (o, s2) /\ same s s2.
Proof.
  intros r1 r2 o s H ->. destruct r2 as [(o2, s2)| | |]; cbn in H; try discriminate H. injection H as <- A B. exists s2. split; [reflexivity|now split].
Qed.

Lemma exec_docced : forall g b l l', docced b l l' -> forall st st' o' s', same st' st -> (b = true -> p_col st = 1%N) ->
  exec g l' st' = Ok (o', s') -> exists o s, exec g l st = Ok (o, s) /\ same s' s /\ wv b o o'.
Proof.
  intros g b l l' H. induction H as [b|b x l l' H IH|c d text l l' N C H IH]; intros st st' o' s' S Z X.
  - cbn [exec] in X. injection X as <- <-. exists "", st. split; [reflexivity|]. split; [exact S|constructor].
  - cbn [exec] in X. apply and_print_ok in X. destruct X as (a & s1 & x2 & X1 & X2 & ->).
    destruct (forget_ok _ _ _ _ (forget_exec1 g x _ _ S) X1) as (s2 & Y1 & S2).
    destruct (IH s2 s1 x2 s' S2) as (o & s & Y2 & S3 & W); [|exact X2|].
    + destruct x; try discriminate. intros _. cbn in Y1. injection Y1 as <- <-. reflexivity.
    + exists (String.append a o), s. split; [|split; [exact S3|]].
      * cbn [exec]. rewrite Y1. unfold and_print. cbn [bind]. rewrite Y2. reflexivity.
      * destruct x; try (now apply wv_app). cbn in X1. injection X1 as <- <-. constructor. exact W.
  - specialize (Z eq_refl). cbn [exec] in X. apply and_print_ok in X. destruct X as (a & s1 & x2 & X1 & X2 & ->).
    cbn [exec1] in X1. destruct S as (S1 & S2).
    assert (I1 : p_ind s1 = p_ind st').
    { unfold write_indent in X1. destruct (is_empty_str (indent_string g st')); [now injection X1 as <- <-|]. unfold write_basic in X1. now injection X1 as <- <-. }
    assert (Ba : blank a).
    { unfold write_indent in X1. destruct (is_empty_str (indent_string g st')); [now injection X1 as <- <-|]. unfold write_basic in X1. injection X1 as <- <-. apply blank_spaces. }
    destruct (exec_app_ok _ _ _ _ _ _ X2) as (o1 & s2 & x3 & X3 & X4 & ->).
    destruct (doc_text _ _ _ _ _ _ _ N X3) as (_ & I2). destruct (doc_is_comment _ _ _ _ _ _ _ N C X3) as (K & _).
    cbn [exec exec1] in X4. apply and_print_ok in X4. destruct X4 as (a4 & s4 & x5 & X4 & X5 & ->). unfold write_newline in X4. injection X4 as <- <-.
    destruct (IH st (PState (p_row s2 + 1) 1 (p_ind s2)) x5 s') as (o & s & Y & S3 & W).
    + split; cbn [p_col p_ind]; congruence.
    + now intros _.
    + exact X5.
    + exists o, s. split; [exact Y|]. split; [exact S3|].
      rewrite <- app_assoc_s. change (String.append nl x5) with (String "010" x5). apply wv_doc; [apply skipped_dropped|exact W].
      destruct K as (w & oc & Bw & -> & K). exists (String.append a w), oc. split; [now apply blank_app|]. split; [now rewrite app_assoc_s|exact K].
Qed.
