(** Doc strings of Vyper: a whole module. *)
From Coq Require Import String Ascii List NArith ZArith Bool Lia.
From Verif Require Import Base Json JsonFacts Printer VyPrinter SpecPrinter SpecVyText SpecVyDoc
  TextFacts LayoutFacts FlowFacts EmitFacts VyEmit PrintFacts VyNoteExec VyText DocFacts DocWhole VyDocFacts VyDocClaims.
Import ListNotations.
Open Scope string_scope.
Open Scope list_scope.

Inductive vdocced : list string -> list cmd -> list cmd -> Prop :=
| Vd_nil : vdocced [] [] []
| Vd_cons ts x l l' : vdocced ts l l' -> vdocced ts (x :: l) (x :: l')
| Vd_doc text ts l l' : plain_doc text -> vdocced ts l l' ->
    vdocced (text :: ts) ([Newline; Inc; Indent] ++ l)
      ([Inc; Newline; Indent] ++ v_doc_string text ++ [Newline; Dec; Newline; Inc; Indent] ++ l').

Lemma vdocced_pre : forall a ts l l', vdocced ts l l' -> vdocced ts (a ++ l) (a ++ l').
Proof. induction a as [|x a IH]; intros ts l l' H; [exact H|]. cbn [app]. constructor. now apply IH. Qed.

Lemma vdocced_app : forall ts l l', vdocced ts l l' -> forall us m m', vdocced us m m' -> vdocced (ts ++ us) (l ++ m) (l' ++ m').
Proof.
  intros ts l l' H. induction H as [|ts x l l' H IH|text ts l l' P H IH]; intros us m m' K; [exact K| |].
  - cbn [app]. constructor. now apply IH.
  - rewrite <- !app_assoc. cbn [app]. apply (Vd_doc text (ts ++ us) (l ++ m) (l' ++ m') P). now apply IH.
Qed.

Lemma vdocced_same : forall l, vdocced [] l l.
Proof. induction l; constructor; assumption. Qed.

(** One doc string. *)
Lemma exec_doc_step : forall g text post st x st', (0 < g_page g)%N -> plain_doc text ->
  exec g ([Inc; Newline; Indent] ++ v_doc_string text ++ [Newline; Dec; Newline; Inc; Indent] ++ post) st = Ok (x, st') ->
  exists doc s t tail, exec g post s = Ok (tail, st') /\ p_col s = (1 + indent_length g t)%N /\ p_ind s = p_ind t /\ t = increase_indent g st /\
    x = String "010" (String.append (indent_string g t) (String.append doc (String "010" (String "010" (String.append (indent_string g t) tail))))) /\
    doc_literal (indent_string g t) text doc.
Proof.
  intros g text post s1 x st' P D H2. cbn [app exec exec1] in H2.
  apply and_print_ok in H2. destruct H2 as (a & s2 & y & H2 & H3 & ->). injection H2 as <- <-.
  rewrite <- and_print_assoc in H3. apply and_print_ok in H3. destruct H3 as (a & s3 & z & H3 & H4 & ->).
  rewrite newline_indent_ok in H3. injection H3 as <- <-.
  set (sd := increase_indent g s1) in *.
  destruct (exec_app_ok _ _ _ _ _ _ H4) as (doc & s4 & z2 & H5 & H6 & ->). clear H4.
  assert (G : doc_literal (indent_string g sd) text doc /\ p_ind s4 = p_ind sd).
  { apply (doc_string_text g text _ doc s4) in H5; [|exact P|exact (inc_max g s1)|reflexivity|exact D]. exact H5. }
  destruct G as (G & I4). cbn [exec exec1] in H6.
  apply and_print_ok in H6. destruct H6 as (a & s5 & z3 & H6 & H7 & ->). unfold write_newline in H6. injection H6 as <- <-.
  apply and_print_ok in H7. destruct H7 as (a & s6 & z4 & H7 & H8 & ->). injection H7 as <- <-.
  apply and_print_ok in H8. destruct H8 as (a & s7 & z5 & H8 & H9 & ->). unfold write_newline in H8. injection H8 as <- <-.
  apply and_print_ok in H9. destruct H9 as (a & s8 & z6 & H9 & H10 & ->). injection H9 as <- <-.
  apply and_print_ok in H10. destruct H10 as (a & s9 & tail & H10 & H11 & ->). rewrite write_indent_ok in H10. injection H10 as <- <-.
  match type of H11 with exec g post (PState _ (1 + indent_length g ?q) _) = _ => set (sq := q) in H11 |- * end.
  assert (IQ : p_ind sq = p_ind sd).
  { unfold sq, sd. etransitivity; [|exact (inc_again g s1)]. fold sd. unfold increase_indent, decrease_indent. cbn [p_ind p_col p_row]. rewrite I4. reflexivity. }
  assert (SI : indent_string g sq = indent_string g sd /\ indent_length g sq = indent_length g sd).
  { unfold indent_string, indent_length. now rewrite IQ. }
  destruct SI as (SI & SL).
  exists doc. eexists. exists sd, tail. split; [exact H11|]. split; [cbn [p_col]; now rewrite SL|]. split; [exact IQ|]. split; [reflexivity|].
  split; [|exact G]. rewrite SI. cbn [String.append nl]. rewrite ?app_assoc_s. reflexivity.
Qed.

Lemma spaces_one_line : forall g st, one_line (indent_string g st).
Proof. intros g st. unfold indent_string, one_line. induction (N.to_nat (indent_length g st)); [reflexivity|assumption]. Qed.

Lemma exec_vdocced : forall g ts l l', (0 < g_page g)%N -> vdocced ts l l' -> forall st st' o' s', same st' st ->
  exec g l' st' = Ok (o', s') -> exists o s, exec g l st = Ok (o, s) /\ same s' s /\ documents ts o o'.
Proof.
  intros g ts l l' P H. induction H as [|ts x l l' H IH|text ts l l' D H IH]; intros st st' o' s' S X.
  - cbn [exec] in X. injection X as <- <-. exists "", st. split; [reflexivity|]. split; [exact S|constructor].
  - cbn [exec] in X. apply and_print_ok in X. destruct X as (a & s1 & x2 & X1 & X2 & ->).
    destruct (forget_ok _ _ _ _ (forget_exec1 g x _ _ S) X1) as (s2 & Y1 & S2).
    destruct (IH s2 s1 x2 s' S2 X2) as (o & s & Y2 & S3 & W).
    exists (String.append a o), s. split; [|split; [exact S3|now constructor]].
    cbn [exec]. rewrite Y1. unfold and_print. cbn [bind]. rewrite Y2. reflexivity.
  - destruct (exec_doc_step _ _ _ _ _ _ P D X) as (doc & s1 & t & tail & X1 & C1 & I1 & -> & -> & L). destruct S as (SC & SI).
    set (t := increase_indent g st') in *.
    assert (T : p_ind (increase_indent g (PState (p_row st + 1) 1 (p_ind st))) = p_ind t) by (unfold t, increase_indent; cbn [p_ind]; now rewrite SI).
    assert (TS : indent_string g (increase_indent g (PState (p_row st + 1) 1 (p_ind st))) = indent_string g t) by (unfold indent_string, indent_length; now rewrite T).
    assert (TL : indent_length g (increase_indent g (PState (p_row st + 1) 1 (p_ind st))) = indent_length g t) by (unfold indent_length; now rewrite T).
    destruct (IH (PState (p_row st + 1) (1 + indent_length g t) (p_ind t)) s1 tail s') as (o & s & Y & S3 & W); [split; assumption|exact X1|].
    exists (String "010" (String.append (indent_string g t) o)), s. split; [|split; [exact S3|]].
    + cbn [app exec exec1]. unfold write_newline, and_print at 1. cbn [bind]. unfold and_print at 1. cbn [bind].
      rewrite write_indent_ok. unfold and_print at 1. cbn [bind]. rewrite TS, TL, T. cbn [p_row p_col increase_indent].
      rewrite Y. cbn [bind]. reflexivity.
    + apply Docs_doc; [apply indent_string_blank|apply spaces_one_line|exact L|exact W].
Qed.

Lemma function_vdocced : forall c ts n n', vc_decl_form c = false -> may_document ts n n' -> vdocced ts (vy_emit c n) (vy_emit c n').
Proof.
  intros c ts n n' C H. destruct H as [n|text n0 n b bs W B D]; [apply vdocced_same|].
  destruct (with_doc_emit _ _ _ _ _ _ C W B) as (pre & post & -> & ->). apply vdocced_pre. apply Vd_doc; [exact D|apply vdocced_same].
Qed.

Lemma module_vdocced : forall c ts n0 n, vc_decl_form c = false -> documented_module ts n0 n -> vdocced ts (vy_emit c n0) (vy_emit c n).
Proof.
  intros c ts n0 n C (T0 & K & l0 & l & B0 & B & A).
  assert (T : is_a n "Module") by (unfold is_a, fld in *; rewrite K by discriminate; exact T0).
  rewrite (vy_at c n _ _ T eq_refl), (vy_at c n0 _ _ T0 eq_refl). unfold v_Module. rewrite (K "doc_string") by discriminate.
  apply vdocced_pre. rewrite (arr_of_fld n "body" _ B), (arr_of_fld n0 "body" _ B0). cbn [opt]. clear B B0.
  induction A as [|ts us m m' k k' M A IH]; [constructor|]. cbn [flat_map]. rewrite <- !app_assoc.
  apply vdocced_app; [now apply function_vdocced|]. apply vdocced_pre. exact IH.
Qed.

Theorem module_docs : forall g c ts n0 n st o st', (0 < g_page g)%N -> vc_decl_form c = false -> documented_module ts n0 n ->
  exec g (vy_emit c n) st = Ok (o, st') ->
  exists o0 st0, exec g (vy_emit c n0) st = Ok (o0, st0) /\ documents ts o0 o.
Proof.
  intros g c ts n0 n st o st' P C D H. destruct (exec_vdocced g ts _ _ P (module_vdocced c ts n0 n C D) st st o st' (conj eq_refl eq_refl) H) as (o0 & s & E & _ & W).
  now exists o0, s.
Qed.

(** Two functions, the first with a doc string. *)
Definition two_defs (d : json) : json := vn "Module" [("doc_string", jvdoc "All"); ("body", JArr [d; bare_def])].

Lemma two_defs_documented : documented_module [quoting] (two_defs bare_def) (two_defs (doc_def quoting)).
Proof.
  split; [reflexivity|]. split.
  - intros k K. unfold two_defs, vn, oget. cbn [assoc]. destruct (k =?s "ast_type"); [reflexivity|]. destruct (k =?s "doc_string"); [reflexivity|].
    destruct (k =?s "body") eqn:E; [apply String.eqb_eq in E; congruence|reflexivity].
  - do 2 eexists. split; [reflexivity|]. split; [reflexivity|].
    apply (All_one [quoting] []); [eapply Documented; [apply doc_def_with|reflexivity|exact quoting_plain]|].
    apply (All_one [] []); constructor.
Qed.
