(** The command that shows the algorithms. *)
From Coq Require Import String Ascii List NArith Bool Arith Lia Permutation Sorted.
From Verif Require Import Base Json JsonFacts MutationType Printer SpecPrinter TextFacts LayoutFacts FlowFacts Info SpecInfo.
Import ListNotations.
Open Scope string_scope.
Open Scope list_scope.

(** ** Sorting the names *)
Lemma ltb_before s t : str_ltb s t = true -> before s t.
Proof.
  revert t. induction s as [|c s IH]; intros [|d t] H; cbn [str_ltb] in H; try discriminate; [constructor|].
  destruct (N.ltb (N_of_ascii c) (N_of_ascii d)) eqn:E; [apply N.ltb_lt in E; now constructor|].
  destruct (N.eqb (N_of_ascii c) (N_of_ascii d)) eqn:E2; [|discriminate].
  apply N.eqb_eq in E2. apply (f_equal ascii_of_N) in E2. rewrite !ascii_N_embedding in E2. subst d.
  apply before_later. now apply IH.
Qed.

Lemma insert_name_perm t l : Permutation (insert_by_name t l) (t :: l).
Proof.
  induction l as [|a l IH]; cbn [insert_by_name]; [auto|]. destruct (str_ltb _ _); [|auto].
  rewrite IH. apply perm_swap.
Qed.

Lemma sort_name_perm l : Permutation (sort_by_name l) l.
Proof. induction l as [|a l IH]; simpl; [auto|]. now rewrite insert_name_perm, IH. Qed.

Fixpoint rank_in (t : mutation_type) (l : list mutation_type) : nat :=
  match l with [] => 0 | x :: l => if mt_eqb t x then 0 else S (rank_in t l) end.
Definition rank (t : mutation_type) : nat := rank_in t all_mutation_types.

Lemma rank_inj t t' : rank t = rank t' -> t = t'.
Proof. destruct t as [[]|[]], t' as [[]|[]]; vm_compute; congruence. Qed.

Lemma rank_ltb t t' : str_ltb (show_mt t) (show_mt t') = Nat.ltb (rank t) (rank t').
Proof. destruct t as [[]|[]], t' as [[]|[]]; vm_compute; reflexivity. Qed.

Lemma insert_name_sorted t l : StronglySorted (fun a b => rank a <= rank b) l ->
  StronglySorted (fun a b => rank a <= rank b) (insert_by_name t l).
Proof.
  intros H. induction H as [|a l Hs IH Ha]; cbn [insert_by_name]; [repeat constructor|].
  rewrite rank_ltb. destruct (Nat.ltb (rank a) (rank t)) eqn:E.
  - apply Nat.ltb_lt in E. constructor; [exact IH|]. apply Forall_forall. intros x Hx.
    apply (Permutation_in _ (insert_name_perm t l)) in Hx. destruct Hx as [<-|Hx]; [lia|].
    rewrite Forall_forall in Ha. now apply Ha.
  - apply Nat.ltb_ge in E. constructor; [now constructor|]. constructor; [exact E|].
    eapply Forall_impl; [|exact Ha]. intros x Hx. cbv beta in Hx. lia.
Qed.

Lemma sort_name_sorted l : StronglySorted (fun a b => rank a <= rank b) (sort_by_name l).
Proof. induction l as [|a l IH]; simpl; [constructor|]. now apply insert_name_sorted. Qed.

Lemma rank_sorted_unique l : forall l',
  StronglySorted (fun a b => rank a <= rank b) l -> StronglySorted (fun a b => rank a <= rank b) l' ->
  Permutation l l' -> l = l'.
Proof.
  induction l as [|a l IH]; intros l' Hl Hl' Hp.
  - now apply Permutation_nil in Hp.
  - destruct l' as [|b l']; [apply Permutation_sym, Permutation_nil in Hp; discriminate|].
    inversion Hl as [|? ? Hs Ha]; subst. inversion Hl' as [|? ? Hs' Hb]; subst.
    rewrite Forall_forall in Ha, Hb.
    assert (Hab : a = b).
    { apply rank_inj. apply Nat.le_antisymm.
      - assert (Hi : In b (a :: l)) by (eapply Permutation_in; [apply Permutation_sym; exact Hp|now left]).
        destruct Hi as [->|Hi]; [lia|now apply Ha].
      - assert (Hi : In a (b :: l')) by (eapply Permutation_in; [exact Hp|now left]).
        destruct Hi as [->|Hi]; [lia|now apply Hb]. }
    subst b. f_equal. apply IH; [assumption|assumption|]. now apply Permutation_cons_inv in Hp.
Qed.

Lemma types_described : Permutation (map fst descriptions) all_mutation_types.
Proof.
  replace all_mutation_types with (sort_by_name (map fst descriptions)) by (vm_compute; reflexivity).
  apply Permutation_sym, sort_name_perm.
Qed.

Lemma sorted_all keys : Permutation keys (map fst descriptions) -> sort_by_name keys = all_mutation_types.
Proof.
  intros H. apply rank_sorted_unique.
  - apply sort_name_sorted.
  - replace all_mutation_types with (sort_by_name all_mutation_types) by (vm_compute; reflexivity).
    apply sort_name_sorted.
  - rewrite sort_name_perm, H. apply types_described.
Qed.

Lemma width_step l : forall a, fold_left (fun w t => if (w <? slen (show_mt t))%N then slen (show_mt t) else w) l a
  = N.max a (fold_left (fun w t => if (w <? slen (show_mt t))%N then slen (show_mt t) else w) l 0%N).
Proof.
  induction l as [|x l IH]; intros a; cbn [fold_left]; [lia|].
  assert (E : forall b, (if (b <? slen (show_mt x))%N then slen (show_mt x) else b) = N.max b (slen (show_mt x))).
  { intros b. destruct (b <? slen (show_mt x))%N eqn:E; [apply N.ltb_lt in E|apply N.ltb_ge in E]; lia. }
  rewrite !E, IH, (IH (N.max 0 _)). lia.
Qed.

Lemma width_perm l l' : Permutation l l' -> name_width l = name_width l'.
Proof.
  unfold name_width. induction 1 as [|x l l' _ IH|x y l|l l' l'' _ IH1 _ IH2].
  - reflexivity.
  - cbn [fold_left]. etransitivity; [apply width_step|]. rewrite IH. symmetry. apply width_step.
  - cbn [fold_left]. etransitivity; [apply width_step|]. symmetry. etransitivity; [apply width_step|]. f_equal.
    assert (E : forall b z, (if (b <? slen (show_mt z))%N then slen (show_mt z) else b) = N.max b (slen (show_mt z))).
    { intros b z. destruct (b <? slen (show_mt z))%N eqn:E; [apply N.ltb_lt in E|apply N.ltb_ge in E]; lia. }
    rewrite !E. lia.
  - congruence.
Qed.

Lemma width_all keys : Permutation keys (map fst descriptions) -> name_width keys = 21%N.
Proof. intros H. rewrite (width_perm _ _ H). vm_compute. reflexivity. Qed.

Lemma alphabetical_all : alphabetical all_mutation_types.
Proof.
  split.
  - intros t. destruct t as [[]|[]]; vm_compute; tauto.
  - unfold all_mutation_types.
    repeat first [apply SSorted_nil | apply SSorted_cons | apply Forall_nil | apply Forall_cons]; apply ltb_before; vm_compute; reflexivity.
Qed.

Lemma find_described t : exists d, find_description t descriptions = Ok d /\ described t d.
Proof. unfold described. destruct t as [[]|[]]; eexists; (split; [vm_compute; reflexivity|vm_compute; tauto]). Qed.

(** ** Words *)
Lemma words_blank_app w b : blank w -> words (String.append w b) = words b.
Proof.
  rewrite !words_unline. induction w as [|c w IH]; intros H; [reflexivity|]. destruct H as [[->| ->] H]; cbn [String.append unline];
    (cbn [Ascii.eqb Bool.eqb]; rewrite pwords_cons_space; now apply IH).
Qed.

Lemma unline_app a b : unline (String.append a b) = String.append (unline a) (unline b).
Proof. induction a; simpl; congruence. Qed.

Lemma words_app_blank a w b : blank w -> w <> "" -> words (String.append a (String.append w b)) = words a ++ words b.
Proof.
  intros H Hne. destruct w as [|c w]; [congruence|]. destruct H as [Hc Hw].
  assert (E : words (String.append a (String c (String.append w b))) = words a ++ words (String.append w b)).
  { rewrite !words_unline, unline_app. cbn [unline].
    replace (if Ascii.eqb c "010" then " "%char else c) with " "%char by (destruct Hc; subst; reflexivity).
    apply pwords_app_space. }
  cbn [String.append]. rewrite E, words_blank_app by exact Hw. reflexivity.
Qed.

Lemma words_app_end a w : blank w -> words (String.append a w) = words a.
Proof.
  intros H. destruct w as [|c w]; [now rewrite app_nil_r_s|].
  rewrite <- (app_nil_r_s (String c w)), words_app_blank by (assumption || discriminate).
  replace (words "") with (@nil string) by reflexivity. apply app_nil_r.
Qed.

Lemma contains_nonempty c w : str_contains c w = true -> w <> "".
Proof. intros H E. subst w. discriminate. Qed.

Lemma pieces_words ps o : pieces "" ps o -> words o = flat_map words ps.
Proof.
  induction 1 as [p|p w ps s Hw Hn _ IH]; cbn [flat_map]; [now rewrite app_nil_r|].
  cbn [String.append]. rewrite words_app_blank by (assumption || now apply contains_nonempty in Hn). now rewrite IH.
Qed.

Lemma strip_words s : strip s = fold_right String.append "" (words s).
Proof.
  rewrite words_unline.
  assert (E : strip s = strip (unline s)).
  { induction s as [|c s IH]; [reflexivity|]. cbn [strip unline]. destruct (Ascii.eqb c "010") eqn:E.
    - rewrite orb_true_r. cbn. exact IH.
    - cbn [strip]. rewrite E, IH. reflexivity. }
  rewrite E. generalize (unline_one_line s). generalize (unline s). clear. intros t Ht.
  unfold pwords, one_line in *. induction t as [|c t IH]; [reflexivity|].
  cbn [str_contains] in Ht. destruct (Ascii.eqb "010" c) eqn:E; [discriminate|]. specialize (IH Ht).
  cbn [strip split_on]. rewrite (Ascii.eqb_sym c "010"), E, orb_false_r. rewrite (Ascii.eqb_sym c " ").
  destruct (Ascii.eqb " " c) eqn:E2; [exact IH|]. rewrite IH. clear.
  generalize (split_nonempty " " t). destruct (split_on " " t) as [|x xs]; [congruence|]. intros _.
  cbn [filter]. unfold full at 1. destruct x as [|d x]; reflexivity.
Qed.

Lemma pieces_strip ps o text : pieces "" ps o -> flat_map words ps = words text -> strip o = strip text.
Proof. intros H E. rewrite !strip_words. rewrite (pieces_words _ _ H), E. reflexivity. Qed.

(** ** What is written *)
Lemma spaces_shape g n st o st' : write_spaces g n st = Ok (o, st') -> blank o.
Proof.
  revert st o. induction n as [|n IH]; intros st o H; cbn [write_spaces] in H; [injection H as <- <-; exact I|].
  apply and_print_ok in H as (a & s & b & H1 & H2 & ->).
  destruct (write_space_ok g st) as (w & s' & E & Hw & _). rewrite E in H1. injection H1 as <- <-.
  apply blank_app; [|now apply IH in H2]. apply blank_app; [exact Hw|]. split; [now left|exact I].
Qed.

Lemma space_shape g st o st' : write_space g st = Ok (o, st') -> blank o /\ o <> "".
Proof.
  intros H. destruct (write_space_ok g st) as (w & s' & E & Hw & _). rewrite E in H. injection H as <- <-.
  split; [apply blank_app; [exact Hw|]; split; [now left|exact I]|]. destruct w; discriminate.
Qed.

Lemma newline_shape st o st' : write_newline st = Ok (o, st') -> blank o /\ o <> "".
Proof. intros H. injection H as <- <-. split; [apply blank_nl|discriminate]. Qed.

Lemma indent_shape g st o st' : write_indent g st = Ok (o, st') -> blank o.
Proof.
  unfold write_indent. destruct (is_empty_str _); intros H; injection H as <- <-; [exact I|apply indent_string_blank].
Qed.

Lemma tokens_shape g s n st o st' : write_tokens g s n st = Ok (o, st') ->
  strip o = fold_right String.append "" (repeat (strip s) n).
Proof.
  revert st o. induction n as [|n IH]; intros st o H; cbn [write_tokens] in H; [now injection H as <- <-|].
  apply and_print_ok in H as (a & t & b & H1 & H2 & ->). apply write_token_shape in H1 as [(w & Hw & ->) _].
  cbn [repeat fold_right]. rewrite !strip_app, (strip_blank _ Hw), (IH _ _ H2). reflexivity.
Qed.

Lemma name_shape g w t st o st' : write_name g w t st = Ok (o, st') ->
  exists w1 w2, blank w1 /\ blank w2 /\ w2 <> "" /\ o = String.append w1 (String.append (show_mt t) w2).
Proof.
  unfold write_name. intros H. apply and_print_ok in H as (a & s & b & H1 & H2 & ->).
  apply and_print_ok in H1 as (c & s' & d & H1 & H3 & ->). apply write_token_shape in H1 as [(w1 & Hw & ->) _].
  apply spaces_shape in H3. apply space_shape in H2 as [Hb Hn].
  exists w1, (String.append d b). split; [exact Hw|]. split; [now apply blank_app|].
  split; [destruct d; [exact Hn|discriminate]|]. now rewrite !app_assoc_s.
Qed.

Lemma name_words t : words (show_mt t) = [show_mt t].
Proof. destruct t as [[]|[]]; vm_compute; reflexivity. Qed.
Lemma name_strip t : strip (show_mt t) = show_mt t.
Proof. destruct t as [[]|[]]; vm_compute; reflexivity. Qed.

Lemma flow_shape g text st o st' : flowable g text "" st = Ok (o, st') -> words o = words text /\ strip o = strip text.
Proof.
  intros H. apply write_flow_pieces in H as (ps & H & _ & E & _).
  split; [now rewrite (pieces_words _ _ H)|now apply (pieces_strip ps)].
Qed.

Lemma list_loop_words g w l : forall st o st', list_loop g w l st = Ok (o, st') ->
  exists es, Forall2 short_entry l es /\ words o = concat es.
Proof.
  induction l as [|t l IH]; intros st o st' H; cbn [list_loop] in H.
  { injection H as <- <-. exists []. split; [constructor|reflexivity]. }
  destruct (find_described t) as (d & E & Hd). rewrite E in H. cbn [bind] in H.
  apply and_print_ok in H as (a & s1 & b & H & Hr & ->). apply and_print_ok in H as (c & s2 & e & H & Hnl & ->).
  apply and_print_ok in H as (f & s3 & h & H & Hdec & ->). injection Hdec as <- <-.
  apply and_print_ok in H as (i & s4 & j & H & Hf & ->).
  apply name_shape in H as (w1 & w2 & B1 & B2 & N2 & ->). apply flow_shape in Hf as [Hf _].
  apply IH in Hr as (es & F & Ew). exists ((show_mt t :: words (d_summary d)) :: es).
  split; [constructor; [exists d; now split|exact F]|]. cbn [concat]. rewrite !app_assoc_s, words_blank_app by exact B1.
  rewrite words_app_blank by assumption. rewrite name_words. cbn [app]. f_equal. cbn [String.append].
  destruct l as [|t' l].
  - injection Hnl as <- <-. inversion F; subst. cbn [concat] in *. rewrite app_nil_r.
    cbn [String.append]. clear - Hf Ew. destruct b as [|x b]; [now rewrite app_nil_r_s|].
    assert (B : blank (String x b)).
    { clear - Ew. revert Ew. generalize (String x b). intros s Hs. assert (strip s = "") by (rewrite strip_words, Hs; reflexivity).
      clear Hs. induction s as [|c s IH]; [exact I|]. cbn [strip] in H. destruct (Ascii.eqb c " ") eqn:E1.
      - apply Ascii.eqb_eq in E1. split; [now left|now apply IH].
      - destruct (Ascii.eqb c "010") eqn:E2; [|discriminate]. apply Ascii.eqb_eq in E2. split; [now right|now apply IH]. }
    now rewrite words_app_end.
  - apply and_print_ok in Hnl as (n1 & s5 & n2 & N1 & N2' & ->).
    apply newline_shape in N1 as [B3 N3]. apply newline_shape in N2' as [B4 N4].
    rewrite words_app_blank; [now rewrite Hf, Ew|now apply blank_app|]. destruct n1; [congruence|discriminate].
Qed.

Lemma list_words oc cols keys o : Permutation keys (map fst descriptions) -> display_list oc cols keys = Ok o ->
  exists l es, alphabetical l /\ Forall2 short_entry l es /\ words o = concat es.
Proof.
  intros Hk H. unfold display_list in H. rewrite (sorted_all _ Hk) in H.
  match type of H with bind ?x _ = _ => destruct x as [[s st]| | |] eqn:E; try discriminate end.
  cbn [bind] in H. injection H as ->. apply and_print_ok in E as (a & s1 & b & E & En & ->).
  apply newline_shape in En as [B _]. apply list_loop_words in E as (es & F & Ew).
  exists all_mutation_types, es. split; [exact alphabetical_all|]. split; [exact F|]. now rewrite words_app_end.
Qed.

Lemma lines_strip g cat text w di st o st' : write_lines g cat text w di st = Ok (o, st') ->
  strip o = String.append (strip cat) (String.append (if is_empty_str cat then "" else fold_right String.append "" (repeat "-" (N.to_nat (slen cat)))) (strip text)).
Proof.
  unfold write_lines. intros H.
  apply and_print_ok in H as (a & s1 & b & H & Hr & ->). injection Hr as <- <-.
  apply and_print_ok in H as (c & s2 & e & H & Hf & ->). apply flow_shape in Hf as [_ Hf].
  apply and_print_ok in H as (x & s3 & y & H & Hc & ->).
  apply and_print_ok in H as (u & s4 & v & H & Hd & ->). injection H as <- <-.
  assert (Ev : strip v = "").
  { apply strip_blank. destruct di; [|injection Hd as <- <-; exact I].
    apply and_print_ok in Hd as (p & s5 & q & H & Hd & ->). apply indent_shape in H. apply space_shape in Hd as [Hd _].
    now apply blank_app. }
  rewrite !strip_app, Ev, Hf. cbn [String.append].
  replace (strip "") with "" by reflexivity. rewrite app_nil_r_s. cbn [String.append].
  destruct (is_empty_str cat) eqn:E.
  - injection Hc as <- <-. apply is_empty_spec in E. subst cat. reflexivity.
  - repeat match goal with H : (_ ;;; _) = Ok _ |- _ => apply and_print_ok in H as (? & ? & ? & H & ? & ->) end.
    repeat match goal with
    | H : write_newline _ = Ok _ |- _ => apply newline_shape in H as [H _]; apply strip_blank in H
    | H : write_space _ _ = Ok _ |- _ => apply space_shape in H as [H _]; apply strip_blank in H
    | H : write_indent _ _ = Ok _ |- _ => apply indent_shape in H; apply strip_blank in H
    | H : write_tokens _ _ _ _ = Ok _ |- _ => apply tokens_shape in H
    | H : write_token _ _ _ = Ok _ |- _ => apply write_token_shape in H as [(w0 & B0 & ->) _]; apply strip_blank in B0
    end.
    rewrite !strip_app.
    repeat match goal with H : strip _ = _ |- _ => rewrite H; clear H end.
    cbn [String.append]. rewrite ?app_nil_r_s. rewrite app_assoc_s. reflexivity.
Qed.

Lemma part_strip g w cat text st o st' : write_part g w cat text st = Ok (o, st') ->
  strip o = String.append (strip cat) (String.append (if is_empty_str cat then "" else fold_right String.append "" (repeat "-" (N.to_nat (slen cat)))) (strip text)).
Proof.
  unfold write_part. intros H. apply and_print_ok in H as (a & s1 & b & H & Hr & ->). apply lines_strip in Hr.
  apply and_print_ok in H as (c & s2 & e & H1 & H2 & ->). apply newline_shape in H1 as [B1 _]. apply newline_shape in H2 as [B2 _].
  now rewrite !strip_app, (strip_blank _ B1), (strip_blank _ B2), Hr.
Qed.

Lemma operators_strip t d : find_description t descriptions = Ok d -> d_operators d <> [] ->
  strip (show_operators (d_operators d)) = operators_text (d_operators d) /\ is_empty_str (operators_text (d_operators d)) = false /\
  strip (operators_text (d_operators d)) = operators_text (d_operators d).
Proof.
  intros H. destruct t as [[]|[]]; vm_compute in H; injection H as <-; intros Hne;
    (repeat split; vm_compute; reflexivity) || (exfalso; apply Hne; reflexivity).
Qed.

Lemma describe_loop_strip g w l : forall st o st', describe_loop g w l st = Ok (o, st') ->
  exists es, Forall2 long_entry l es /\ strip o = fold_right String.append "" es.
Proof.
  induction l as [|t l IH]; intros st o st' H; cbn [describe_loop] in H.
  { injection H as <- <-. exists []. split; [constructor|reflexivity]. }
  destruct (find_described t) as (d & E & Hd). rewrite E in H. cbn [bind] in H.
  apply and_print_ok in H as (o1 & s1 & o2 & H & Hr & ->). apply and_print_ok in H as (o3 & s2 & o4 & H & Hnl & ->).
  apply and_print_ok in H as (o5 & s3 & o6 & H & Hex & ->). apply and_print_ok in H as (o7 & s4 & o8 & H & Hop & ->).
  apply and_print_ok in H as (o9 & s5 & o10 & H & Hde & ->). apply and_print_ok in H as (o11 & s6 & o12 & H & Hsu & ->).
  apply name_shape in H as (w1 & w2 & B1 & B2 & _ & ->). apply lines_strip in Hsu.
  apply IH in Hr as (es & F & Ew).
  eexists (_ :: es). split; [constructor; [exists d; split; [exact Hd|reflexivity]|exact F]|].
  cbn [fold_right]. rewrite !strip_app, (strip_blank _ B1), (strip_blank _ B2), name_strip, Hsu, Ew. cbn [is_empty_str strip String.append].
  assert (Enl : strip o4 = "").
  { destruct l; [injection Hnl as <- <-; reflexivity|].
    apply and_print_ok in Hnl as (n1 & z1 & n2 & Hnl & N3 & ->). apply and_print_ok in Hnl as (n4 & z2 & n5 & N1 & N2 & ->).
    apply newline_shape in N1 as [N1 _]. apply newline_shape in N2 as [N2 _]. apply newline_shape in N3 as [N3 _].
    now rewrite !strip_app, (strip_blank _ N1), (strip_blank _ N2), (strip_blank _ N3). }
  assert (Ede : strip o10 = part "" (d_details d)).
  { unfold part. destruct (is_empty_str (d_details d)); [injection Hde as <- <-; reflexivity|]. apply part_strip in Hde. exact Hde. }
  assert (Eex : strip o6 = part "Examples:---------" (d_examples d)).
  { unfold part. destruct (is_empty_str (d_examples d)); [injection Hex as <- <-; reflexivity|]. apply part_strip in Hex. exact Hex. }
  assert (Eop : strip o8 = part "Operators:----------" (operators_text (d_operators d))).
  { assert (Q := operators_strip t d E). destruct (d_operators d) as [|x xs] eqn:Eo; [injection Hop as <- <-; reflexivity|].
    destruct Q as (Q1 & Q2 & Q3); [discriminate|]. apply part_strip in Hop. unfold part. rewrite Q2, Q3, <- Q1. exact Hop. }
  rewrite Enl, Ede, Eex, Eop. cbn [String.append]. rewrite !app_nil_r_s, !app_assoc_s. reflexivity.
Qed.

Lemma descriptions_strip oc cols keys o : Permutation keys (map fst descriptions) -> display_descriptions oc cols keys = Ok o ->
  exists l es, alphabetical l /\ Forall2 long_entry l es /\ strip o = fold_right String.append "" es.
Proof.
  intros Hk H. unfold display_descriptions in H. rewrite (sorted_all _ Hk) in H.
  match type of H with bind ?x _ = _ => destruct x as [[s st]| | |] eqn:E; try discriminate end.
  cbn [bind] in H. injection H as ->. apply and_print_ok in E as (a & s1 & b & E & En & ->).
  apply newline_shape in En as [B _]. apply describe_loop_strip in E as (es & F & Ew).
  exists all_mutation_types, es. split; [exact alphabetical_all|]. split; [exact F|].
  now rewrite strip_app, (strip_blank _ B), app_nil_r_s.
Qed.

(** ** Coming to an end *)
Definition reach (r : pres) (P : pstate -> Prop) : Prop := exists o st, r = Ok (o, st) /\ P st.
Definition at_ (c i : N) (st : pstate) : Prop := p_col st = c /\ p_ind st = i.
Definition in_ (i : N) (st : pstate) : Prop := p_ind st = i.

Lemma reach_seq r f P Q : reach r P -> (forall st, P st -> reach (f st) Q) -> reach (r ;;; f) Q.
Proof.
  intros (o & st & -> & H) K. destruct (K st H) as (o' & st' & E & H'). exists (String.append o o'), st'.
  split; [|exact H']. unfold and_print. cbn [bind]. rewrite E. reflexivity.
Qed.

Lemma reach_newline i st : p_ind st = i -> reach (write_newline st) (at_ 1 i).
Proof. intros <-. eexists _, _. split; [reflexivity|]. split; reflexivity. Qed.

Lemma reach_indent g c i st : at_ c i st -> g_tab g = 1%N -> reach (write_indent g st) (at_ (c + i) i).
Proof.
  intros [Hc Hi] Ht. unfold write_indent, indent_string, indent_length. rewrite Hi, Ht, N.mul_1_r.
  destruct (is_empty_str (space_string (N.to_nat i))) eqn:E; eexists _, _; (split; [reflexivity|]).
  - apply is_empty_spec in E. assert (H := slen_spaces (N.to_nat i)). rewrite E in H. cbn in H.
    split; [|exact Hi]. rewrite Hc. lia.
  - split; [|exact Hi]. cbn [p_col]. rewrite slen_spaces, Hc. lia.
Qed.

Lemma reach_space g c i st : at_ c i st -> (c < g_page g)%N -> reach (write_space g st) (at_ (c + 1) i).
Proof.
  intros [Hc Hi] Hp. destruct (write_space_ok g st) as (w & st' & E & _ & Ei & [(E1 & _)|(_ & _ & E2)]); [exfalso; lia|].
  exists (String.append w " "), st'. split; [exact E|]. split; [rewrite E2, Hc; reflexivity|congruence].
Qed.

Lemma reach_spaces g n i : forall c st, at_ c i st -> (c + N.of_nat n <= g_page g)%N ->
  reach (write_spaces g n st) (at_ (c + N.of_nat n) i).
Proof.
  induction n as [|n IH]; intros c st H Hp; cbn [write_spaces].
  - eexists _, _. split; [reflexivity|]. replace (c + N.of_nat 0)%N with c by lia. exact H.
  - eapply reach_seq; [apply (reach_space g c i st H); lia|]. intros st' H'.
    replace (c + N.of_nat (S n))%N with (c + 1 + N.of_nat n)%N by lia. apply IH; [exact H'|lia].
Qed.

Lemma reach_token g s c i st : at_ c i st -> (c + slen s <= g_page g)%N -> (0 < g_page g)%N ->
  reach (write_token g s st) (at_ (c + slen s) i).
Proof.
  intros [Hc Hi] Hp H0. destruct (write_token_ok g s st H0) as (row & E). eexists _, _. split; [exact E|].
  unfold token_lead. rewrite Hc.
  replace (g_page g <? c)%N with false by (symmetry; apply N.ltb_ge; lia).
  replace (g_page g <? slen s)%N with false by (symmetry; apply N.ltb_ge; lia).
  replace (g_page g - c <? slen s)%N with false by (symmetry; apply N.ltb_ge; lia).
  split; [reflexivity|exact Hi].
Qed.

Lemma reach_tokens g s n i : (0 < g_page g)%N -> slen s = 1%N -> forall c st, at_ c i st -> (c + N.of_nat n <= g_page g)%N ->
  reach (write_tokens g s n st) (at_ (c + N.of_nat n) i).
Proof.
  intros H0 Hs. induction n as [|n IH]; intros c st H Hp; cbn [write_tokens].
  - eexists _, _. split; [reflexivity|]. replace (c + N.of_nat 0)%N with c by lia. exact H.
  - eapply reach_seq; [apply (reach_token g s c i st H); lia|]. intros st' H'. rewrite Hs in H'.
    replace (c + N.of_nat (S n))%N with (c + 1 + N.of_nat n)%N by lia. apply IH; [exact H'|lia].
Qed.

(** The widest word that the terminal has to have room for. *)
Definition fits_words (page i : N) (text : string) : Prop :=
  Forall (fun w => (1 + i + slen w + 2 <= page)%N) (words text).

Lemma reach_flow g text i st : g_tab g = 1%N -> p_ind st = i -> (p_col st <= g_page g)%N -> (i + 3 < g_page g)%N ->
  fits_words (g_page g) i text -> reach (flowable g text "" st) (in_ i).
Proof.
  intros Ht Hi Hc Hp Hw. destruct (words_fit_stops g text "" st Hc) as (o & st' & E).
  - unfold indent_length. rewrite Ht, Hi. cbn [slen]. lia.
  - intros w H. unfold fits_words in Hw. rewrite Forall_forall in Hw. specialize (Hw w H). unfold indent_length. rewrite Ht, Hi. cbn [slen]. lia.
  - exists o, st'. split; [exact E|]. apply write_flow_pieces in E as (_ & _ & _ & _ & E). unfold in_. congruence.
Qed.

Lemma name_short t : (slen (show_mt t) <= 21)%N.
Proof. destruct t as [[]|[]]; vm_compute; discriminate. Qed.

Lemma reach_name g t i st : at_ 1 i st -> (24 <= g_page g)%N -> reach (write_name g 21 t st) (at_ 23 i).
Proof.
  intros H Hp. unfold write_name. assert (Hn := name_short t). eapply reach_seq; [eapply reach_seq|].
  - apply (reach_token g (show_mt t) 1 i st H); lia.
  - intros s Hs. apply (reach_spaces g _ i _ s Hs). lia.
  - cbv beta. intros s Hs. rewrite N2Nat.id in Hs. replace (1 + slen (show_mt t) + (21 - slen (show_mt t)))%N with 22%N in Hs by lia.
    apply (reach_space g 22 i s Hs). lia.
Qed.

Definition wide (t : mutation_type) (k : N) : Prop :=
  exists d, find_description t descriptions = Ok d /\
  Forall (fun w => (25 + slen w <= k)%N) (words (d_summary d)).
Definition all_texts (d : description) : list string :=
  [d_summary d; d_details d; show_operators (d_operators d); d_examples d].

Lemma summaries_fit t d : find_description t descriptions = Ok d ->
  forallb (fun w => slen w <=? 15)%N (words (d_summary d)) = true.
Proof. intros H. destruct t as [[]|[]]; vm_compute in H; injection H as <-; vm_compute; reflexivity. Qed.
Lemma texts_fit t d : find_description t descriptions = Ok d ->
  forallb (fun x => forallb (fun w => slen w <=? 18)%N (words x)) (all_texts d) = true.
Proof. intros H. destruct t as [[]|[]]; vm_compute in H; injection H as <-; vm_compute; reflexivity. Qed.

Lemma forallb_fits k page text : forallb (fun w => slen w <=? k)%N (words text) = true -> (25 + k <= page)%N -> fits_words page 22 text.
Proof.
  intros H Hp. rewrite forallb_forall in H. apply Forall_forall. intros w Hw. specialize (H w Hw). apply N.leb_le in H. lia.
Qed.

Lemma big_indent g : g_tab g = 1%N -> (24 <= g_page g)%N -> (23 <= max_indent g)%N.
Proof. intros Ht Hp. unfold max_indent. rewrite Ht. change (23 <= g_page g / 1 - 1)%N. rewrite N.div_1_r. lia. Qed.

Lemma list_loop_ends g l : g_tab g = 1%N -> (40 <= g_page g)%N -> forall st, at_ 1 0 st -> reach (list_loop g 21 l st) (in_ 0).
Proof.
  intros Ht Hp. induction l as [|t l IH]; intros st H; cbn [list_loop].
  { eexists _, _. split; [reflexivity|]. apply H. }
  destruct (find_described t) as (d & E & _). rewrite E. cbn [bind].
  assert (R : reach (write_name g 21 t st ;;; (fun st => flowable g (d_summary d) "" (increase_indent_by g (21 + 1) st)) ;;;
    (fun st => Ok ("", decrease_indent_by (21 + 1) st))) (in_ 0)).
  { eapply reach_seq; [eapply reach_seq|].
    - apply (reach_name g t 0 st H). lia.
    - cbv beta. intros s [Hc Hi]. apply (reach_flow g _ 22); [exact Ht| |cbn [increase_indent_by p_col]; lia|lia|].
      + unfold increase_indent_by. cbn [p_ind]. rewrite Hi. assert (Hm := big_indent g Ht ltac:(lia)).
        replace (0 + (21 + 1) <=? max_indent g)%N with true by (symmetry; apply N.leb_le; lia). reflexivity.
      + apply (forallb_fits 15); [exact (summaries_fit t d E)|lia].
    - cbv beta. intros s Hs. eexists _, _. split; [reflexivity|]. unfold in_, decrease_indent_by in *. cbn [p_ind]. rewrite Hs. reflexivity. }
  destruct l as [|t' l].
  - eapply reach_seq; [eapply reach_seq; [exact R|]|].
    + cbv beta. intros s Hs. eexists _, _. split; [reflexivity|]. exact Hs.
    + intros s Hs. cbn [list_loop]. eexists _, _. split; [reflexivity|]. exact Hs.
  - eapply reach_seq; [eapply reach_seq; [exact R|]|].
    + cbv beta. intros s Hs. eapply reach_seq; [apply (reach_newline 0 s Hs)|]. intros s' [_ Hs']. apply (reach_newline 0 s' Hs').
    + exact IH.
Qed.

Ltac seqs n := match n with O => idtac | S ?m => eapply reach_seq; [seqs m|] end.

Lemma write_lines_ends g cat text (di : bool) st (c : N) : g_tab g = 1%N -> (40 <= g_page g)%N -> at_ c 0 st ->
  (if di then c = 1%N else (c <= 23)%N /\ cat = "") -> (slen cat <= 10)%N -> fits_words (g_page g) 22 text ->
  reach (write_lines g cat text 21 di st) (in_ 0).
Proof.
  intros Ht Hp [Hc Hi] Hd Hcat Hw. assert (Hm := big_indent g Ht ltac:(lia)). unfold write_lines.
  eapply reach_seq; [eapply reach_seq; [eapply (reach_seq _ _ (fun s => (p_col s <= 23)%N /\ (cat <> "" -> p_col s = 23%N) /\ p_ind s = 21%N)); [eapply reach_seq|]|]|].
  - eexists _, _. split; [reflexivity|]. instantiate (1 := at_ c 21). split; [exact Hc|]. unfold increase_indent_by. cbn [p_ind]. rewrite Hi.
    replace (0 + 21 <=? max_indent g)%N with true by (symmetry; apply N.leb_le; lia). reflexivity.
  - cbv beta. intros s Hs. destruct di.
    + rewrite Hd in Hs. destruct (reach_indent g 1 21 s Hs Ht) as (o & s1 & E1 & H1).
      destruct (reach_space g 22 21 s1 H1 ltac:(lia)) as (o2 & s2 & E2 & H2). exists (String.append o o2), s2.
      split; [unfold and_print; rewrite E1; cbn [bind]; rewrite E2; reflexivity|]. destruct H2 as [H2 H3]. rewrite H2. repeat split; [lia|exact H3].
    + destruct Hd as [Hd ->]. eexists _, _. split; [reflexivity|]. destruct Hs as [-> Hs]. repeat split; [exact Hd|congruence|exact Hs].
  - cbv beta. intros s (H1 & H2 & H3). instantiate (1 := fun s => (p_col s <= 23)%N /\ p_ind s = 21%N). destruct (is_empty_str cat) eqn:E.
    + eexists _, _. split; [reflexivity|]. now split.
    + assert (Hne : cat <> "") by (intros ->; discriminate). assert (Hs : at_ 23 21 s) by (split; [now apply H2|exact H3]).
      assert (R : reach (write_token g cat s ;;; write_newline ;;; write_indent g ;;; write_space g ;;;
        write_tokens g "-" (N.to_nat (slen cat)) ;;; write_newline ;;; write_newline ;;; write_indent g ;;; write_space g) (at_ 23 21)).
      { seqs 8.
        - apply (reach_token g cat 23 21 s Hs); lia.
        - intros x [_ Hx]. exact (reach_newline 21 x Hx).
        - intros x Hx. exact (reach_indent g 1 21 x Hx Ht).
        - intros x Hx. exact (reach_space g 22 21 x Hx ltac:(lia)).
        - intros x Hx. apply (reach_tokens g "-" _ 21 ltac:(lia) eq_refl 23 x Hx). lia.
        - intros x [_ Hx]. exact (reach_newline 21 x Hx).
        - intros x [_ Hx]. exact (reach_newline 21 x Hx).
        - intros x Hx. exact (reach_indent g 1 21 x Hx Ht).
        - intros x Hx. exact (reach_space g 22 21 x Hx ltac:(lia)). }
      destruct R as (o & x & E' & Hx & Hx'). exists o, x. split; [exact E'|]. split; [lia|exact Hx'].
  - cbv beta. intros s [H1 H2]. apply (reach_flow g text 22); [exact Ht| |cbn; lia|lia|exact Hw].
    unfold increase_indent. cbn [p_ind]. rewrite H2. replace (max_indent g <=? 21)%N with false by (symmetry; apply N.leb_gt; lia). reflexivity.
  - cbv beta. intros s Hs. eexists _, _. split; [reflexivity|]. unfold in_, decrease_indent_by in *. cbn [p_ind]. rewrite Hs. reflexivity.
Qed.

Lemma write_part_ends g cat text st : g_tab g = 1%N -> (40 <= g_page g)%N -> in_ 0 st -> (slen cat <= 10)%N -> fits_words (g_page g) 22 text ->
  reach (write_part g 21 cat text st) (in_ 0).
Proof.
  intros Ht Hp Hs Hc Hw. unfold write_part. eapply reach_seq; [eapply reach_seq; [exact (reach_newline 0 st Hs)|]|].
  - intros s [_ H]. exact (reach_newline 0 s H).
  - intros s H. apply (write_lines_ends g cat text true s 1); auto.
Qed.

Lemma describe_loop_ends g l : g_tab g = 1%N -> (43 <= g_page g)%N -> forall st, at_ 1 0 st -> reach (describe_loop g 21 l st) (in_ 0).
Proof.
  intros Ht Hp. induction l as [|t l IH]; intros st H; cbn [describe_loop].
  { eexists _, _. split; [reflexivity|]. apply H. }
  destruct (find_described t) as (d & E & _). rewrite E. cbn [bind].
  assert (Hw : forall x, In x (all_texts d) -> fits_words (g_page g) 22 x).
  { intros x Hx. assert (Q := texts_fit t d E). rewrite forallb_forall in Q. apply (forallb_fits 18); [now apply Q|lia]. }
  unfold all_texts in Hw. cbn [In] in Hw.
  assert (Skip : forall s, in_ 0 s -> reach (Ok ("", s)) (in_ 0)) by (intros s Hs; eexists _, _; split; [reflexivity|exact Hs]).
  eapply reach_seq; [eapply (reach_seq _ _ (in_ 0)); [eapply (reach_seq _ _ (in_ 0)); [eapply (reach_seq _ _ (in_ 0)); [eapply (reach_seq _ _ (in_ 0)); [eapply reach_seq|]|]|]|]|].
  - apply (reach_name g t 0 st H). lia.
  - intros s Hs. apply (write_lines_ends g "" (d_summary d) false s 23); [exact Ht|lia|exact Hs|split; [lia|reflexivity]|cbn; lia|apply Hw; tauto].
  - cbv beta. intros s Hs. destruct (is_empty_str (d_details d)); [now apply Skip|]. apply write_part_ends; [exact Ht|lia|exact Hs|cbn; lia|apply Hw; tauto].
  - cbv beta. intros s Hs. destruct (d_operators d) eqn:Eo; [now apply Skip|]. apply write_part_ends; [exact Ht|lia|exact Hs|vm_compute; discriminate|apply Hw; tauto].
  - cbv beta. intros s Hs. destruct (is_empty_str (d_examples d)); [now apply Skip|]. apply write_part_ends; [exact Ht|lia|exact Hs|vm_compute; discriminate|apply Hw; tauto].
  - cbv beta. intros s Hs. instantiate (1 := fun s => match l with [] => in_ 0 s | _ => at_ 1 0 s end).
    destruct l; [now apply Skip|]. eapply reach_seq; [eapply reach_seq; [exact (reach_newline 0 s Hs)|]|].
    + intros x [_ Hx]. exact (reach_newline 0 x Hx).
    + intros x [_ Hx]. exact (reach_newline 0 x Hx).
  - cbv beta. intros s Hs. destruct l; [cbn [describe_loop]; now apply Skip|]. now apply IH.
Qed.

Lemma below (n k : N) (P : N -> Prop) : (n < k)%N -> (forall m, (m < N.to_nat k)%nat -> P (N.of_nat m)) -> P n.
Proof. intros H K. rewrite <- (N2Nat.id n). apply K. lia. Qed.

Definition ended (r : res string) : bool := match r with Ok _ => true | _ => false end.

Lemma list_narrow m : m < 40 -> ended (display_list true (N.of_nat m) all_mutation_types) = false.
Proof. do 40 (destruct m as [|m]; [intros _; vm_compute; reflexivity|]). lia. Qed.
Lemma describe_narrow m : m < 43 -> ended (display_descriptions true (N.of_nat m) all_mutation_types) = Nat.eqb m 41.
Proof. do 43 (destruct m as [|m]; [intros _; vm_compute; reflexivity|]). lia. Qed.

Lemma list_keys oc cols keys : Permutation keys (map fst descriptions) ->
  display_list oc cols keys = display_list oc cols all_mutation_types.
Proof.
  intros H. unfold display_list. rewrite (sorted_all _ H), (width_all _ H).
  rewrite (sorted_all _ (Permutation_sym types_described)), (width_all _ (Permutation_sym types_described)). reflexivity.
Qed.
Lemma describe_keys oc cols keys : Permutation keys (map fst descriptions) ->
  display_descriptions oc cols keys = display_descriptions oc cols all_mutation_types.
Proof.
  intros H. unfold display_descriptions. rewrite (sorted_all _ H), (width_all _ H).
  rewrite (sorted_all _ (Permutation_sym types_described)), (width_all _ (Permutation_sym types_described)). reflexivity.
Qed.

Lemma list_wide oc cols keys : Permutation keys (map fst descriptions) -> (40 <= cols)%N -> comes_to_an_end (display_list oc cols keys).
Proof.
  intros Hk Hc. unfold display_list. rewrite (sorted_all _ Hk), (width_all _ Hk).
  destruct (list_loop_ends (Geo 1 cols oc) all_mutation_types eq_refl Hc fresh) as (o & st & E & _); [split; reflexivity|].
  eexists. unfold and_print. rewrite E. cbn [bind]. unfold write_newline. cbn [bind]. reflexivity.
Qed.
Lemma describe_wide oc cols keys : Permutation keys (map fst descriptions) -> (43 <= cols)%N -> comes_to_an_end (display_descriptions oc cols keys).
Proof.
  intros Hk Hc. unfold display_descriptions. rewrite (sorted_all _ Hk), (width_all _ Hk).
  destruct (describe_loop_ends (Geo 1 cols oc) all_mutation_types eq_refl Hc fresh) as (o & st & E & _); [split; reflexivity|].
  eexists. unfold and_print. rewrite E. cbn [bind]. unfold write_newline. cbn [bind]. reflexivity.
Qed.

Lemma list_ends_iff cols keys : Permutation keys (map fst descriptions) ->
  (comes_to_an_end (display_list true cols keys) <-> (40 <= cols)%N).
Proof.
  intros Hk. split; [|now apply list_wide]. intros (o & E). rewrite (list_keys _ _ _ Hk) in E.
  destruct (N.le_gt_cases 40 cols) as [H|H]; [exact H|exfalso]. revert o E.
  apply (below cols 40 (fun n => forall o, display_list true n all_mutation_types = Ok o -> False) H).
  intros m Hm o E. apply (f_equal ended) in E. rewrite (list_narrow m) in E by exact Hm. discriminate.
Qed.

Lemma describe_ends_iff cols keys : Permutation keys (map fst descriptions) ->
  (comes_to_an_end (display_descriptions true cols keys) <-> (43 <= cols)%N \/ cols = 41%N).
Proof.
  intros Hk. split.
  - intros (o & E). rewrite (describe_keys _ _ _ Hk) in E.
    destruct (N.le_gt_cases 43 cols) as [H|H]; [now left|right]. revert o E.
    apply (below cols 43 (fun n => forall o, display_descriptions true n all_mutation_types = Ok o -> n = 41%N) H).
    intros m Hm o E. apply (f_equal ended) in E. rewrite (describe_narrow m) in E by exact Hm. cbn [ended] in E.
    apply Nat.eqb_eq in E. now subst.
  - intros [H| ->]; [now apply describe_wide|]. rewrite (describe_keys _ _ _ Hk).
    assert (E := describe_narrow 41). specialize (E ltac:(lia)). change (N.of_nat 41) with 41%N in E.
    destruct (display_descriptions true 41 all_mutation_types) as [o| | |]; [now exists o|discriminate..].
Qed.

Lemma list_overflows keys : Permutation keys (map fst descriptions) -> forall oc, display_list oc 39 keys = Diverge.
Proof. intros Hk oc. rewrite (list_keys _ _ _ Hk). destruct oc; vm_compute; reflexivity. Qed.
