(** The Solidity node printers make requests that always succeed, on regular
    nodes. *)
From Coq Require Import String Ascii List NArith ZArith Arith Bool Lia.
From Verif Require Import Base Json JsonFacts Printer SpecPrinter SpecTree SpecOps SpecPlain SolPrinter
  EmitFacts SolEmit PaceFacts TraverseFacts3.
Import ListNotations.
Open Scope string_scope.
Open Scope list_scope.

Section Sol.
Variable F : string -> string -> Prop.

Definition sol_ok (x : json) : Prop :=
  sol_regular x /\ forall t next, sol_remark x t next -> F t next.

Definition space (ty : string) (p : scode) : Prop := forall c r n,
  sol_ok n -> is_sol ty n ->
  (forall c v, part v n -> paced F false (r c v)) -> paced F false (p c r n).

Lemma paced_pragma : forall l prev b, paced F b (s_pragma prev l).
Proof.
  induction l as [| v l IH]; intros prev b; [ exact I |]. cbn [s_pragma]. cbv zeta.
  destruct (as_str v); [| apply IH ]. pace.
Qed.

Lemma paced_named n f : forall names args b,
  all_strings names -> (forall v, In v args -> part v n) ->
  (forall v, part v n -> paced F false (f v)) -> paced F b (s_named f names args).
Proof.
  induction names as [| x names IH]; intros args b Hs Ha Hf; [ exact I |].
  destruct args as [| a args]; [ exact I |]. cbn [s_named].
  destruct (Hs x (or_introl eq_refl)) as [s ->]. cbn [as_str].
  assert (Hs' : all_strings names) by (intros v Hv; apply Hs; now right).
  assert (Ha' : forall v, In v args -> part v n) by (intros v Hv; apply Ha; now right).
  specialize (fun b => IH args b Hs' Ha' Hf).
  pose proof (Ha a (or_introl eq_refl)). pace.
Qed.

Lemma paced_options n f : forall names args b,
  all_strings names -> (forall v, In v args -> part v n) ->
  (forall v, part v n -> paced F false (f v)) -> paced F b (s_options f names args).
Proof.
  induction names as [| x names IH]; intros args b Hs Ha Hf; [ exact I |].
  destruct args as [| a args]; [ exact I |]. cbn [s_options].
  destruct (Hs x (or_introl eq_refl)) as [s ->]. cbn [as_str].
  assert (Hs' : all_strings names) by (intros v Hv; apply Hs; now right).
  assert (Ha' : forall v, In v args -> part v n) by (intros v Hv; apply Ha; now right).
  specialize (fun b => IH args b Hs' Ha' Hf).
  pose proof (Ha a (or_introl eq_refl)). pace.
Qed.

Lemma sol_table_paced : Forall (fun p => space (fst p) (snd p)) sol_table.
Proof.
  unfold sol_table.
  repeat (constructor; [ cbn [fst snd]; intros c r n Hok Hty Hr |]); [ .. | constructor ].
  all: match goal with
       | |- paced _ _ (s_keyword_semi _ _ _ _) => unfold s_keyword_semi
       | |- paced _ _ (s_keyword _ _ _ _) => unfold s_keyword
       | |- paced _ _ (s_yul_assign _ _ _ _) => unfold s_yul_assign
       | |- paced _ _ (?p _ _ _) => unfold p
       end; unfold s_yul_assign, s_using_item, s_alias, s_close_block, s_statements; shelpers; pace.
  - apply Hok. apply Sol_comment; [ exact Hty | apply get_str_field; [ reflexivity | exact H ] ].
  - destruct Hok as [[Hc _] _].
    destruct (Hc Hty l a) as [-> | [Hs _]]; [ apply get_array_field; [ reflexivity | assumption ] .. | | ].
    + exact I.
    + eapply paced_named; [ exact Hs | | apply Hr ]. intros; eauto with pace.
  - destruct Hok as [[Hc _] _].
    destruct (Hc Hty l a) as [-> | [_ Hl]]; [ apply get_array_field; [ reflexivity | assumption ] .. | | ].
    + discriminate.
    + apply Nat.eqb_neq in Heqb0. contradiction.
  - destruct Hok as [[_ Hc] _].
    destruct (Hc Hty a a0) as [Hs _]; [ apply get_array_field; [ reflexivity | assumption ] .. | ].
    eapply paced_options; [ exact Hs | | apply Hr ]. intros; eauto with pace.
  - destruct Hok as [[_ Hc] _].
    destruct (Hc Hty a a0) as [_ Hl]; [ apply get_array_field; [ reflexivity | assumption ] .. | ].
    apply Nat.eqb_neq in Heqb. contradiction.
  - destruct (arr_of n "symbolAliases") eqn:E; [| destruct H0 ]. apply Hr.
    eapply part_within; [ eapply part_oget; exact H1 | eapply part_arr; eassumption ].
  - apply Hok. apply Sol_assembly; [ exact Hty | apply get_str_field; [ reflexivity | exact H ] ].
  - apply paced_pragma.
  - apply Hok. eapply Sol_documentation; [ exact Hty | apply get_str_field; [ reflexivity | eassumption ] | assumption ].
Qed.

Lemma sol_emit_paced : forall n, everywhere sol_ok n -> forall c, paced F false (sol_emit c n).
Proof.
  intro n. remember (jdepth n) as d eqn:Ed. revert n Ed.
  induction d as [d IH] using lt_wf_ind. intros n -> Hn c. rewrite sol_emit_unfold.
  assert (Hr : forall c v, part v n -> paced F false (sol_emit c v)).
  { intros c0 v [[q Hq] Hd]. apply (IH (jdepth v) Hd v eq_refl). intros p x Hx.
    apply (Hn (q ++ p)). rewrite subtree_app, Hq. exact Hx. }
  unfold sol_printer_for.
  destruct (get_str n "nodeType") as [ty |] eqn:Et; [ destruct (assoc ty sol_table) as [p |] eqn:E |].
  1: { apply assoc_In_pair in E. pose proof sol_table_paced as T. rewrite Forall_forall in T.
       apply (T (ty, p) E); [ apply (Hn []); reflexivity | | exact Hr ].
       apply get_str_field; [ reflexivity | exact Et ]. }
  all: unfold s_dummy; pace.
Qed.
End Sol.

(** ** Whole trees *)

Lemma sol_plain_prints oc n : sol_plain n -> forall c, exists s, print_text oc (sol_emit c n) = Ok s.
Proof.
  intros H c. apply quiet_prints. apply sol_emit_paced. intros q x Hx.
  destruct (H q x Hx) as [H1 H2]. split; [ exact H1 |]. intros t next Ht. exact (H2 t next Ht).
Qed.

Lemma sol_legible_prints oc k n c : sol_legible k n ->
  (4 * climb 0 (sol_emit c n) + k <= 142)%N -> (4 * climb 0 (sol_emit c n) < 142)%N ->
  exists s, print_text oc (sol_emit c n) = Ok s.
Proof.
  intros H Hk Hd.
  apply (paced_prints (fun t next => short_words k t /\ (slen next <= 5)%N) oc _ (climb 0 (sol_emit c n))).
  - intros t next [Hw Hn]. split; [ lia |]. intros w Hi. specialize (Hw w Hi). lia.
  - apply N.le_refl.
  - apply sol_emit_paced. intros q x Hx. destruct (H q x Hx) as [H1 H2].
    split; [ exact H1 |]. intros t next Ht. split; [ exact (H2 t next Ht) |].
    destruct Ht; apply N.leb_le; reflexivity.
Qed.
