(** The Vyper node printers make requests that always succeed, on regular
    nodes. *)
From Coq Require Import String Ascii List NArith ZArith Arith Bool Lia.
From Verif Require Import Base Json JsonFacts Printer SpecPrinter SpecTree SpecOps SpecPlain VyPrinter
  EmitFacts VyEmit PaceFacts TraverseFacts3.
Import ListNotations.
Open Scope string_scope.
Open Scope list_scope.

Lemma byte_pairs_ok : forall k s, ascii_only s -> String.length s = 2 * k ->
  exists x, byte_pairs s = Some x.
Proof.
  induction k as [| k IH]; intros s Ha Hl.
  - destruct s; [ eexists; reflexivity | discriminate ].
  - destruct s as [| a [| b s]]; try (cbn in Hl; lia).
    cbn [ascii_only] in Ha. destruct Ha as (Ha & Hb & Hs).
    destruct (IH s Hs) as [x Hx]; [ cbn in Hl; lia |]. cbn [byte_pairs].
    assert (C : forall c, (N_of_ascii c < 128)%N -> is_cont_byte c = false).
    { intros c Hc. unfold is_cont_byte. replace (128 <=? N_of_ascii c)%N with false; [ reflexivity |].
      symmetry. apply N.leb_gt. exact Hc. }
    rewrite (C a Ha). cbn [orb].
    assert (E : match s with String d _ => is_cont_byte d | EmptyString => false end = false).
    { destruct s; [ reflexivity |]. apply C. apply Hs. }
    rewrite E, Hx. eexists. reflexivity.
Qed.

Lemma bytes_ok s : ascii_only s -> Nat.Even (String.length s) ->
  exists x, byte_pairs (str_drop 2 s) = Some x.
Proof.
  intros Ha [k Hk]. destruct s as [| a [| b s]]; [ eexists; reflexivity | cbn in Hk; lia |].
  cbn [str_drop]. apply (byte_pairs_ok (k - 1)); [ apply Ha | cbn in Hk; lia ].
Qed.

Section Vy.
Variable F : string -> string -> Prop.

(** The text of a statement that has been commented out flows. *)
Definition vy_ok (x : json) : Prop :=
  vy_regular x /\ (forall t next, vy_remark x t next -> F t next) /\
  (forall v, vy_commented_out x v -> forall oc c,
     exists t, print_text oc (vy_emit c v) = Ok t /\ F t "# ").

Definition vpace (ty : string) (p : vcode) : Prop := forall c n,
  vy_ok n -> is_vy ty n ->
  (forall c v, part v n -> paced F false (vy_emit c v)) ->
  paced F false (p c vy_emit n).

Lemma paced_doc s b : F s "" -> paced F b (v_doc_string s).
Proof.
  intro H. unfold v_doc_string. destruct (str_contains "010" s); [ exact I |].
  cbn [paced]. split; [ reflexivity |]. split; [ exact H | exact I ].
Qed.

Lemma paced_args n f first : forall args i defaults b,
  i + length args <= first + length defaults ->
  (forall v, In v args -> part v n) -> (forall v, In v defaults -> part v n) ->
  (forall v, part v n -> paced F false (f v)) ->
  paced F b (v_args f first i args defaults).
Proof.
  induction args as [| a args IH]; intros i defaults b Hl Ha Hd Hf; [ exact I |]. cbn [v_args].
  assert (Ha' : forall v, In v args -> part v n) by (intros v Hv; apply Ha; now right).
  cbn [length] in Hl.
  assert (IH' : forall b, paced F b (v_args f first (S i) args defaults)).
  { intro b0. apply IH; auto. lia. }
  pose proof (Ha a (or_introl eq_refl)). apply paced_app; [ pace |]. apply paced_app.
  - destruct (Nat.leb first i) eqn:E; [| exact I ].
    destruct (nth_error defaults (i - first)) eqn:Ed.
    + apply nth_error_In in Ed. pose proof (Hd j Ed). pace.
    + apply nth_error_None in Ed. apply Nat.leb_le in E. lia.
  - pace.
Qed.

Lemma paced_pairs n f : forall ks vs b,
  (forall v, In v ks -> part v n) -> (forall v, In v vs -> part v n) ->
  (forall v, part v n -> paced F false (f v)) -> paced F b (v_pairs f ks vs).
Proof.
  induction ks as [| k ks IH]; intros vs b Hk Hv Hf; [ destruct vs; exact I |].
  destruct vs as [| v vs]; [ exact I |]. cbn [v_pairs].
  pose proof (Hk k (or_introl eq_refl)). pose proof (Hv v (or_introl eq_refl)).
  assert (IH' : forall b, paced F b (v_pairs f ks vs)).
  { intro b0. apply IH; auto; intros x Hx; [ apply Hk | apply Hv ]; now right. }
  pace.
Qed.

Lemma paced_decorators n f l b :
  (forall v, In v l -> part v n) -> (forall v, part v n -> paced F false (f v)) ->
  paced F b (v_decorators f l).
Proof.
  intros Hl Hf. unfold v_decorators. destruct l as [| d l]; [ exact I |].
  assert (forall v, In v (d :: l) -> paced F false (f v)) by auto. pace.
  apply paced_mono, H. now right.
Qed.

Lemma vy_table_paced : Forall (fun p => vpace (fst p) (snd p)) vy_table.
Proof.
  unfold vy_table.
  repeat (constructor; [ cbn [fst snd]; intros c n Hok Hty Hr |]); [ .. | constructor ].
  all: match goal with
       | |- paced _ _ (v_keyword_only _ _ _ _) => unfold v_keyword_only
       | |- paced _ _ (v_block_def _ _ _ _) => unfold v_block_def
       | |- paced _ _ (?p _ _ _) => unfold p
       end; unfold v_simple_value, v_indented_body, v_body_nodes, v_array, v_indented,
              v_value_assignment, v_parens_maybe; pace.
  - eapply paced_decorators; [| apply Hr ]. intros; eauto with pace.
  - apply paced_doc. apply Hok. eapply Vy_doc; [ left; exact Hty | exact H |].
    apply get_str_field; [ reflexivity | exact H0 ].
  - apply Nat.leb_le in Heqb0. eapply paced_args; [| | | apply Hr ]; [ lia | intros; eauto with pace .. ].
  - destruct Hok as [[Hc _] _]. specialize (Hc Hty a0 a (arr_field _ _ _ H0) (arr_field _ _ _ H)).
    apply Nat.leb_gt in Heqb0. lia.
  - apply Hr. eapply part_arr; [ exact H |]. right. now left.
  - apply paced_doc. apply Hok. eapply Vy_doc; [ right; exact Hty | exact H |].
    apply get_str_field; [ reflexivity | exact H0 ].
  - apply Hok. apply Vy_comment; assumption.
  - intro oc. apply Hok. split; [ exact Hty |]. split; [ exact H | reflexivity ].
  - destruct Hok as [[_ [Hc _]] _]. destruct (Hc Hty a) as [Ha He];
      [ apply get_str_field; [ reflexivity | exact H ] |].
    destruct (bytes_ok a Ha He) as [x Hx]. rewrite Hx in Heqo. discriminate Heqo.
  - eapply paced_pairs; [| | apply Hr ]; intros; eauto with pace.
  - destruct Hok as [[_ [_ Hc]] _]. specialize (Hc Hty a a0 (arr_field _ _ _ H) (arr_field _ _ _ H0)).
    apply Nat.eqb_neq in Heqb. contradiction.
Qed.

Lemma vy_emit_paced : forall n, everywhere vy_ok n -> forall c, paced F false (vy_emit c n).
Proof.
  intro n. remember (jdepth n) as d eqn:Ed. revert n Ed.
  induction d as [d IH] using lt_wf_ind. intros n -> Hn c. rewrite vy_emit_unfold.
  assert (Hr : forall c v, part v n -> paced F false (vy_emit c v)).
  { intros c0 v [[q Hq] Hd]. apply (IH (jdepth v) Hd v eq_refl). intros p x Hx.
    apply (Hn (q ++ p)). rewrite subtree_app, Hq. exact Hx. }
  unfold vy_printer_for.
  destruct (get_str n "ast_type") as [ty |] eqn:Et; [ destruct (assoc ty vy_table) as [p |] eqn:E |].
  1: { apply assoc_In_pair in E. pose proof vy_table_paced as T. rewrite Forall_forall in T.
       apply (T (ty, p) E); [ apply (Hn []); reflexivity | | exact Hr ].
       apply get_str_field; [ reflexivity | exact Et ]. }
  all: unfold v_dummy; pace.
Qed.
End Vy.

(** ** Whole trees *)

Lemma vy_plain_prints oc n : vy_plain n -> forall c, exists s, print_text oc (vy_emit c n) = Ok s.
Proof.
  intros H c. apply quiet_prints. apply vy_emit_paced. intros q x Hx.
  destruct (H q x Hx) as (H1 & H2 & H3). split; [ exact H1 |]. split.
  - intros t next Ht. exact (H2 t next Ht).
  - intros v Hv. destruct (H3 v Hv).
Qed.

Lemma vy_legible_prints oc k n c : vy_legible k n ->
  (4 * climb 0 (vy_emit c n) + k <= 142)%N -> (4 * climb 0 (vy_emit c n) < 142)%N ->
  exists s, print_text oc (vy_emit c n) = Ok s.
Proof.
  intros H Hk Hd.
  apply (paced_prints (fun t next => short_words k t /\ (slen next <= 5)%N) oc _ (climb 0 (vy_emit c n))).
  - intros t next [Hw Hn]. split; [ lia |]. intros w Hi. specialize (Hw w Hi). lia.
  - apply N.le_refl.
  - apply vy_emit_paced. intros q x Hx. destruct (H q x Hx) as (H1 & H2 & H3).
    split; [ exact H1 |]. split.
    + intros t next Ht. split; [ exact (H2 t next Ht) |]. destruct Ht; apply N.leb_le; reflexivity.
    + intros v Hv oc0 c0. destruct (H3 v Hv oc0 c0) as (t & Ht & Hw). exists t. split; [ exact Ht |].
      split; [ exact Hw | apply N.leb_le; reflexivity ].
Qed.
