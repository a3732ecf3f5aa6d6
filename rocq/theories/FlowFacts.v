(** Re-flowed text (write_flowable_text): what it writes, when it stops, and
    where its lines begin.  The proofs behind C10, C46 and C47. *)
From Coq Require Import String Ascii List NArith Arith Bool Lia.
From Verif Require Import Base Json Printer SpecPrinter TextFacts LayoutFacts.
Import ListNotations.
Open Scope string_scope.
Open Scope list_scope.

Lemma and_print_assoc : forall r f h,
  (r ;;; f) ;;; h = r ;;; (fun st => f st ;;; h).
Proof.
  intros [[a s] | | |] f h; try reflexivity. unfold and_print at 2 3. cbn [bind].
  destruct (f s) as [[b s'] | | |]; try reflexivity. unfold and_print. cbn [bind].
  destruct (h s') as [[d s''] | | |]; try reflexivity. cbn [bind]. rewrite app_assoc_s. reflexivity.
Qed.

(** The start of a continuation line: line break, indentation, prefix. *)
Definition lead (g : geo) (next : string) (st : pstate) : pres :=
  write_newline st ;;; write_indent g ;;; write_token g next.

(** One call of [write_flow]. *)
Lemma write_flow_unfold : forall fuel g text next st,
  write_flow (S fuel) g text next st
  = let t := normalise text in
    let? space_left := usub g (g_page g) (p_col st) in
    if (space_left <? slen t)%N then
      if (space_left =? 0)%N then lead g next st ;;; write_flow fuel g t next
      else
        let k := break_at (N.to_nat space_left) t in
        (if is_empty_str (str_take k t) then Ok ("", st) else write_basic (str_take k t) st) ;;;
        (fun st => lead g next st ;;;
          (fun st => if is_empty_str (rest_from k t) then Ok ("", st)
                     else write_flow fuel g (rest_from k t) next st))
    else write_basic t st.
Proof.
  intros. cbn [write_flow]. cbv zeta.
  destruct (usub g (g_page g) (p_col st)) as [left | | |]; try reflexivity. cbn [bind].
  destruct (left <? slen (normalise text))%N; [| reflexivity ].
  destruct (left =? 0)%N; [ reflexivity |].
  rewrite !and_print_assoc. unfold lead.
  match goal with |- ?a ;;; _ = ?a ;;; _ => destruct a as [[x s] | | |]; try reflexivity end.
  unfold and_print at 1 5. cbn [bind]. f_equal.
  rewrite !and_print_assoc. reflexivity.
Qed.

Lemma is_empty_spec : forall s, is_empty_str s = true -> s = "".
Proof. destruct s; [ reflexivity | discriminate ]. Qed.

Lemma lead_ok : forall g next st o st',
  lead g next st = Ok (o, st') ->
  exists w, blank w /\ str_contains "010" w = true /\ o = String.append w next /\
            p_ind st' = p_ind st.
Proof.
  intros g next st o st' H. unfold lead in H.
  apply and_print_ok in H. destruct H as (a & s & b & H1 & H2 & ->).
  rewrite newline_indent_ok in H1. injection H1 as <- <-.
  apply write_token_shape in H2. destruct H2 as [(w & Hw & ->) Hi]. cbn [p_ind] in Hi.
  exists (String.append (String.append nl (indent_string g st)) w).
  split; [ apply blank_app; [ apply blank_lead1 | assumption ] |].
  split; [ rewrite !str_contains_app; reflexivity |].
  split; [ rewrite !app_assoc_s; reflexivity | assumption ].
Qed.

(** ** C46: exactly the words, in order *)

Lemma words_normalise : forall t, words (normalise t) = words t.
Proof.
  intro t. rewrite words_one_line by apply normalise_one_line. apply normalise_words.
Qed.

Lemma write_flow_pieces : forall fuel g text next st o st',
  write_flow fuel g text next st = Ok (o, st') ->
  exists ps, pieces next ps o /\ Forall one_line ps /\
             flat_map words ps = words text /\ p_ind st' = p_ind st.
Proof.
  induction fuel as [| fuel IH]; intros g text next st o st' H; [ discriminate |].
  rewrite write_flow_unfold in H. cbv zeta in H.
  pose proof (normalise_one_line text) as Hol.
  rewrite <- (words_normalise text). revert H Hol. generalize (normalise text). intros t H Hol.
  destruct (usub g (g_page g) (p_col st)) as [left | | |]; try discriminate. cbn [bind] in H.
  destruct (left <? slen t)%N.
  - destruct (left =? 0)%N.
    + apply and_print_ok in H. destruct H as (a & s & b & H1 & H2 & ->).
      apply lead_ok in H1. destruct H1 as (w & Hw & Hn & -> & Hi).
      destruct (IH _ _ _ _ _ _ H2) as (ps & P1 & P2 & P3 & P4).
      exists ("" :: ps). split; [| split; [| split ] ].
      * rewrite app_assoc_s. apply (Pieces_more next "" w ps b Hw Hn P1).
      * constructor; [ reflexivity | assumption ].
      * cbn [flat_map]. rewrite P3. reflexivity.
      * congruence.
    + set (k := break_at (N.to_nat left) t) in *.
      apply and_print_ok in H. destruct H as (f & s1 & b & H1 & H2 & ->).
      assert (f = str_take k t /\ p_ind s1 = p_ind st) as [-> Hi1].
      { destruct (is_empty_str (str_take k t)) eqn:E.
        - injection H1 as <- <-. rewrite (is_empty_spec _ E). auto.
        - unfold write_basic in H1. injection H1 as <- <-. auto. }
      clear H1. cbv beta in H2.
      apply and_print_ok in H2. destruct H2 as (a & s & c & H1 & H2 & ->).
      apply lead_ok in H1. destruct H1 as (w & Hw & Hn & -> & Hi).
      assert (Hw1 : words t = words (str_take k t) ++ words (rest_from k t)).
      { rewrite !words_one_line by (try apply one_line_take; try apply one_line_rest; assumption).
        apply rest_words. }
      cbv beta in H2. destruct (is_empty_str (rest_from k t)) eqn:E.
      * injection H2 as <- <-. exists [str_take k t; ""]. split; [| split; [| split ] ].
        -- rewrite app_assoc_s. apply Pieces_more; [ assumption | assumption | constructor ].
        -- constructor; [ apply one_line_take; assumption |]. repeat constructor.
        -- rewrite Hw1, (is_empty_spec _ E). reflexivity.
        -- congruence.
      * destruct (IH _ _ _ _ _ _ H2) as (ps & P1 & P2 & P3 & P4).
        exists (str_take k t :: ps). split; [| split; [| split ] ].
        -- rewrite app_assoc_s. apply Pieces_more; assumption.
        -- constructor; [ apply one_line_take; assumption | assumption ].
        -- cbn [flat_map]. rewrite P3, Hw1. reflexivity.
        -- congruence.
  - unfold write_basic in H. injection H as <- <-. exists [t].
    split; [ constructor |]. split; [ constructor; [ assumption | constructor ] |].
    split; [| reflexivity ]. cbn [flat_map]. rewrite app_nil_r. reflexivity.
Qed.

(** ** The fuel does not matter *)

(** The row is only counted. *)
Definition forget (r : pres) : res (string * N * N) :=
  let? (s, st) := r in Ok (s, p_col st, p_ind st).

Definition same (a b : pstate) : Prop := p_col a = p_col b /\ p_ind a = p_ind b.

Lemma forget_and_print : forall r1 r2 f1 f2,
  forget r1 = forget r2 ->
  (forall a b, same a b -> forget (f1 a) = forget (f2 b)) ->
  forget (r1 ;;; f1) = forget (r2 ;;; f2).
Proof.
  intros r1 r2 f1 f2 H Hf. unfold forget, and_print in *.
  destruct r1 as [[a s] | | |], r2 as [[b s'] | | |]; cbn [bind] in *; try discriminate; try congruence.
  injection H as -> H1 H2. specialize (Hf s s' (conj H1 H2)).
  destruct (f1 s) as [[x u] | | |], (f2 s') as [[y v] | | |]; cbn [bind] in *; congruence.
Qed.

Lemma forget_basic : forall s a b, same a b -> forget (write_basic s a) = forget (write_basic s b).
Proof. intros s a b [H1 H2]. unfold forget, write_basic. cbn. congruence. Qed.

Lemma forget_newline : forall a b, same a b -> forget (write_newline a) = forget (write_newline b).
Proof. intros a b [H1 H2]. unfold forget, write_newline. cbn. congruence. Qed.

Lemma forget_indent : forall g a b, same a b -> forget (write_indent g a) = forget (write_indent g b).
Proof.
  intros g a b [H1 H2]. rewrite !write_indent_ok. unfold forget, indent_string, indent_length.
  cbn. rewrite H1, H2. reflexivity.
Qed.

Lemma forget_skip : forall a b, same a b -> forget (Ok ("", a)) = forget (Ok ("", b)).
Proof. intros a b [H1 H2]. unfold forget. cbn. congruence. Qed.

Lemma forget_token : forall g s a b, same a b -> forget (write_token g s a) = forget (write_token g s b).
Proof.
  intros g s a b H. unfold write_token. destruct H as [H1 H2]. rewrite <- H1.
  apply forget_and_print.
  - destruct (g_page g <? p_col a)%N; [ apply forget_newline | apply forget_skip ]; split; assumption.
  - clear a b H1 H2. intros a b [H1 H2]. unfold indent_length. rewrite <- H1, <- H2.
    assert (S : same a b) by (split; assumption).
    destruct (g_page g <? slen s)%N.
    + destruct (p_ind a * g_tab g <? p_col a)%N; [| apply forget_basic; assumption ].
      apply forget_and_print; [| intros; apply forget_basic; assumption ].
      apply forget_and_print; [ apply forget_newline; assumption |].
      intros; apply forget_indent; assumption.
    + destruct (usub g (g_page g) (p_col a)) as [left | | |]; try reflexivity. cbn [bind].
      apply forget_and_print; [| intros; apply forget_basic; assumption ].
      destruct (left <? slen s)%N; [| apply forget_skip; assumption ].
      apply forget_and_print; [ apply forget_newline; assumption |].
      intros; apply forget_indent; assumption.
Qed.

(** A continuation line starts the same way whatever was before it. *)
Lemma forget_lead : forall g next a b,
  p_ind a = p_ind b -> forget (lead g next a) = forget (lead g next b).
Proof.
  intros g next a b H. unfold lead.
  apply forget_and_print; [| intros; apply forget_token; assumption ].
  rewrite !newline_indent_ok. unfold forget, indent_string, indent_length. cbn.
  rewrite H. reflexivity.
Qed.

Lemma forget_flow : forall fuel g text next a b,
  same a b -> forget (write_flow fuel g text next a) = forget (write_flow fuel g text next b).
Proof.
  induction fuel as [| fuel IH]; intros g text next a b S; [ reflexivity |].
  rewrite !write_flow_unfold. cbv zeta. destruct S as [H1 H2]. rewrite <- H1.
  assert (S : same a b) by (split; assumption).
  destruct (usub g (g_page g) (p_col a)) as [left | | |]; try reflexivity. cbn [bind].
  destruct (left <? slen (normalise text))%N; [| apply forget_basic; assumption ].
  destruct (left =? 0)%N.
  - apply forget_and_print; [ apply forget_lead; assumption |]. intros. apply IH. assumption.
  - apply forget_and_print.
    + destruct (is_empty_str _); [ apply forget_skip | apply forget_basic ]; assumption.
    + intros c d [_ Hi]. apply forget_and_print; [ apply forget_lead; assumption |].
      intros. destruct (is_empty_str _); [ apply forget_skip | apply IH ]; assumption.
Qed.

Lemma forget_diverge : forall r1 r2, forget r1 = forget r2 -> r1 = Diverge -> r2 = Diverge.
Proof. intros r1 [[x s] | | |] H ->; cbn in H; congruence. Qed.

(** A state at the start of a continuation line. *)
Definition at_cont (g : geo) (next : string) (st : pstate) : Prop :=
  exists st0 o, lead g next st0 = Ok (o, st).

Lemma at_cont_again : forall g next st o st',
  at_cont g next st -> lead g next st = Ok (o, st') -> same st' st.
Proof.
  intros g next st o st' (st0 & o0 & H0) H.
  destruct (lead_ok _ _ _ _ _ H0) as (_ & _ & _ & _ & Hi).
  pose proof (forget_lead g next st st0 Hi) as E. rewrite H, H0 in E. cbn in E.
  split; congruence.
Qed.

Lemma and_print_diverge : forall r f,
  r ;;; f = Diverge -> r = Diverge \/ exists o s, r = Ok (o, s) /\ f s = Diverge.
Proof.
  intros [[o s] | | |] f H; try discriminate; [| auto ]. right. exists o, s. split; [ reflexivity |].
  unfold and_print in H. cbn [bind] in H. destruct (f s) as [[x u] | | |]; try discriminate; reflexivity.
Qed.

Lemma lead_not_diverge : forall g next st, lead g next st <> Diverge.
Proof.
  intros g next st H. unfold lead in H.
  apply and_print_diverge in H. destruct H as [H | (o & s & _ & H)].
  - rewrite newline_indent_ok in H. discriminate.
  - unfold write_token in H. apply and_print_diverge in H. destruct H as [H | (o2 & s2 & _ & H)].
    + destruct (g_page g <? p_col s)%N; discriminate.
    + destruct (g_page g <? slen next)%N.
      * destruct (indent_length g s2 <? p_col s2)%N; [| discriminate ].
        rewrite newline_indent_ok in H. discriminate.
      * unfold usub in H. destruct (p_col s2 <=? g_page g)%N; cbn [bind] in H.
        -- apply and_print_diverge in H. destruct H as [H | (x & y & _ & H)]; [| discriminate ].
           destruct (g_page g - p_col s2 <? slen next)%N; [ rewrite newline_indent_ok in H |]; discriminate.
        -- destruct (g_oc g); [ discriminate |]. cbn [bind] in H.
           apply and_print_diverge in H. destruct H as [H | (x & y & _ & H)]; [| discriminate ].
           destruct (two64 - (p_col s2 - g_page g) <? slen next)%N; [ rewrite newline_indent_ok in H |]; discriminate.
Qed.

Lemma str_drop_length : forall k s, String.length (str_drop k s) = String.length s - k.
Proof. induction k; destruct s; simpl; auto. Qed.

Lemma rest_length : forall k t,
  rest_from k t = t \/ String.length (rest_from k t) < String.length t \/ t = "".
Proof.
  intros. unfold rest_from. destruct t as [| c t]; [ auto |].
  destruct (space_at k (String c t)).
  - right. left. rewrite str_drop_length. simpl. lia.
  - destruct k; [ left; reflexivity |]. right. left. rewrite str_drop_length. simpl. lia.
Qed.

(** What one call does at a continuation line, for a text already normalised. *)
Lemma cont_step : forall g next t st fuel0,
  one_line t -> tidy t -> at_cont g next st ->
  String.length t < fuel0 ->
  write_flow fuel0 g t next st = Diverge ->
  forall fuel, write_flow fuel g t next st = Diverge.
Proof.
  intros g next t. remember (String.length t) as n eqn:Hn.
  revert t Hn. induction n as [n IHn] using lt_wf_ind.
  intros t Hn st fuel0 Hol Htd Hc Hf H. subst n.
  destruct fuel0 as [| fuel0]; [ lia |].
  rewrite write_flow_unfold in H. cbv zeta in H. rewrite (normalise_id t Hol Htd) in H.
  destruct (usub g (g_page g) (p_col st)) as [left | | |] eqn:Eu; try discriminate.
  2: { unfold usub in Eu. destruct (p_col st <=? g_page g)%N; [ discriminate |].
       destruct (g_oc g); discriminate. }
  cbn [bind] in H.
  destruct (left <? slen t)%N eqn:El; [| discriminate ].
  (* recursion on the same text from a continuation line *)
  assert (Loop : forall s1, p_ind s1 = p_ind st ->
     (forall o s2, lead g next s1 = Ok (o, s2) ->
        forall fuel, (forall f2, f2 <= fuel -> write_flow f2 g t next st = Diverge) ->
        write_flow fuel g t next s2 = Diverge)).
  { intros s1 Hi o s2 Hl fuel Hall.
    assert (S : same s2 st).
    { destruct Hc as (st0 & o0 & H0).
      destruct (lead_ok _ _ _ _ _ H0) as (_ & _ & _ & _ & Hi0).
      pose proof (forget_lead g next s1 st0 (eq_trans Hi Hi0)) as E. rewrite Hl, H0 in E.
      cbn in E. split; congruence. }
    eapply forget_diverge; [ symmetry; apply forget_flow; exact S |]. apply Hall. lia. }
  destruct (left =? 0)%N eqn:E0.
  - (* no room at all *)
    apply and_print_diverge in H. destruct H as [H | (o & s & H1 & H2)];
      [ destruct (lead_not_diverge _ _ _ H) |].
    intro fuel. induction fuel as [fuel IHf] using lt_wf_ind.
    destruct fuel as [| fuel]; [ reflexivity |].
    rewrite write_flow_unfold. cbv zeta. rewrite (normalise_id t Hol Htd), Eu. cbn [bind].
    rewrite El, E0, H1. unfold and_print. cbn [bind].
    rewrite (Loop st eq_refl o s H1 fuel); [ reflexivity |]. intros. apply IHf. lia.
  - set (k := break_at (N.to_nat left) t) in *.
    apply and_print_diverge in H. destruct H as [H | (f & s1 & H1 & H)].
    { destruct (is_empty_str (str_take k t)); discriminate. }
    assert (Hi1 : p_ind s1 = p_ind st).
    { destruct (is_empty_str (str_take k t)); unfold write_basic in H1;
        injection H1 as <- <-; reflexivity. }
    apply and_print_diverge in H. destruct H as [H | (o & s & H2 & H)];
      [ destruct (lead_not_diverge _ _ _ H) |].
    cbv beta in H. destruct (is_empty_str (rest_from k t)) eqn:Er; [ discriminate |].
    destruct (rest_length k t) as [Hsame | [Hless | Hnil]].
    + intro fuel. induction fuel as [fuel IHf] using lt_wf_ind.
      destruct fuel as [| fuel]; [ reflexivity |].
      rewrite write_flow_unfold. cbv zeta. rewrite (normalise_id t Hol Htd), Eu. cbn [bind].
      rewrite El, E0. fold k. rewrite H1. unfold and_print at 1. cbn [bind].
      rewrite H2. unfold and_print at 1. cbn [bind]. rewrite Er, Hsame.
      rewrite (Loop s1 Hi1 o s H2 fuel); [ reflexivity |]. intros. apply IHf. lia.
    + assert (Hd : forall fuel, write_flow fuel g (rest_from k t) next s = Diverge).
      { eapply IHn; [ exact Hless | reflexivity | apply one_line_rest; assumption
                    | apply tidy_rest; assumption | | | exact H ].
        - exists s1, o. exact H2.
        - lia. }
      intros [| fuel]; [ reflexivity |].
      rewrite write_flow_unfold. cbv zeta. rewrite (normalise_id t Hol Htd), Eu. cbn [bind].
      rewrite El, E0. fold k. rewrite H1. unfold and_print at 1. cbn [bind].
      rewrite H2. unfold and_print at 1. cbn [bind]. rewrite Er, Hd. reflexivity.
    + subst t. exfalso. apply N.ltb_lt in El. cbn [slen] in El. lia.
Qed.

(** The promised bound: if [flow_fuel] calls are not enough, the Rust function
    recurses without end. *)
Lemma flow_fuel_enough : forall g text next st,
  write_flow (flow_fuel text) g text next st = Diverge ->
  forall fuel, write_flow fuel g text next st = Diverge.
Proof.
  intros g text next st H.
  assert (exists f0, flow_fuel text = S f0 /\ String.length text + 1 < f0) as (f0 & Ef & Hf0).
  { unfold flow_fuel. exists (2 * String.length text + 3). lia. }
  rewrite Ef in H. rewrite write_flow_unfold in H. cbv zeta in H.
  pose proof (normalise_length text) as Hlen.
  pose proof (normalise_one_line text) as Hol. pose proof (normalise_tidy text) as Htd.
  intros [| fuel]; [ reflexivity |]. rewrite write_flow_unfold. cbv zeta.
  set (t := normalise text) in *.
  destruct (usub g (g_page g) (p_col st)) as [left | | |]; try discriminate; try reflexivity.
  cbn [bind] in *. destruct (left <? slen t)%N; [| discriminate ].
  destruct (left =? 0)%N.
  - apply and_print_diverge in H. destruct H as [H | (o & s & H1 & H2)];
      [ destruct (lead_not_diverge _ _ _ H) |].
    rewrite H1. unfold and_print. cbn [bind].
    rewrite (cont_step g next t s f0 Hol Htd (ex_intro _ st (ex_intro _ o H1))) by (assumption || lia).
    reflexivity.
  - set (k := break_at (N.to_nat left) t) in *.
    apply and_print_diverge in H. destruct H as [H | (f & s1 & H1 & H)].
    { destruct (is_empty_str (str_take k t)); discriminate. }
    apply and_print_diverge in H. destruct H as [H | (o & s & H2 & H)];
      [ destruct (lead_not_diverge _ _ _ H) |].
    cbv beta in H. rewrite H1. unfold and_print at 1. cbn [bind].
    rewrite H2. unfold and_print at 1. cbn [bind].
    destruct (is_empty_str (rest_from k t)); [ discriminate |].
    rewrite (cont_step g next (rest_from k t) s f0);
      [ reflexivity | apply one_line_rest; assumption | apply tidy_rest; assumption
      | exists s1, o; exact H2 | | exact H ].
    destruct (rest_length k t) as [-> | [Hless | Hnil]]; [ lia | lia |].
    rewrite Hnil. unfold rest_from. destruct k; simpl; lia.
Qed.

(** ** C47: when every word fits, the flow stops *)

Lemma word_scan_ge : forall n s i prev start,
  start <= i -> start <= word_scan n i prev start s.
Proof.
  induction n; intros s i prev start H; [ reflexivity |].
  destruct s as [| c s]; [ reflexivity |]. cbn [word_scan].
  destruct (Ascii.eqb c " "); [ apply IHn; lia |].
  destruct prev; [| apply IHn; lia ]. etransitivity; [ exact H |]. apply IHn. lia.
Qed.

(** A word starting right after the space at [p] is seen if it is scanned. *)
Lemma word_scan_sees : forall p n s i prev start,
  start <= i -> S p < n -> space_at p s = true ->
  space_at (S p) s = false -> S p < String.length s ->
  i + S p <= word_scan n i prev start s.
Proof.
  induction p; intros n s i prev start Hs Hn H1 H2 H3.
  - destruct n as [| [| n]]; [ lia | lia |].
    destruct s as [| c [| d s]]; [ discriminate | simpl in H3; lia |].
    cbn [space_at] in H1, H2. cbn [word_scan]. rewrite H1, H2.
    etransitivity; [| apply word_scan_ge; lia ]. lia.
  - destruct n as [| n]; [ lia |]. destruct s as [| c s]; [ discriminate |].
    change (space_at p s = true) in H1. change (space_at (S p) s = false) in H2.
    cbn [word_scan]. cbn [String.length] in H3.
    assert (A : forall pr q, q <= S i -> S i + S p <= word_scan n (S i) pr q s).
    { intros pr q Hq. apply IHp; try assumption; lia. }
    destruct (Ascii.eqb c " ").
    + specialize (A true start). lia.
    + specialize (A false (if prev then i else start)).
      destruct prev; lia.
Qed.

(** The first piece of a text that does not begin with a space. *)
Lemma first_word : forall t,
  exists w ws, split_on " " t = w :: ws /\
    String.length w <= String.length t /\
    (String.length w < String.length t -> space_at (String.length w) t = true).
Proof.
  induction t as [| c t IH].
  - exists "", []. simpl. split; [ reflexivity |]. split; [ lia | lia ].
  - cbn [split_on]. destruct (Ascii.eqb " " c) eqn:E.
    + exists "", (split_on " " t). split; [ reflexivity |]. simpl. split; [ lia |]. intros _.
      apply Ascii.eqb_eq in E. subst c. reflexivity.
    + destruct IH as (w & ws & H1 & H2 & H3). rewrite H1. exists (String c w), ws.
      split; [ reflexivity |]. simpl. split; [ lia |]. intro. apply H3. lia.
Qed.

Lemma tidy_after_space : forall p t,
  tidy t -> space_at p t = true -> space_at (S p) t = false.
Proof.
  induction p; intros [| c t] Ht H; try discriminate.
  - unfold tidy in Ht. cbn [drop_double] in Ht. cbn [space_at] in *.
    destruct t as [| d t]; [ reflexivity |]. cbn [space_at].
    rewrite H in Ht. cbn [andb] in Ht. destruct (Ascii.eqb d " "); [ discriminate | reflexivity ].
  - cbn [space_at] in H |- *. apply IHp; [ eapply tidy_tail; eassumption | assumption ].
Qed.

(** A line with room for every word and two bytes more is always used. *)
Lemma break_progress : forall left t,
  tidy t -> 2 < left -> left < String.length t ->
  (forall w, In w (pwords t) -> String.length w + 2 <= left) ->
  String.length (rest_from (break_at left t) t) < String.length t.
Proof.
  intros left t Ht Hl Hlen Hw. unfold rest_from.
  destruct (space_at (break_at left t) t) eqn:E1; [ rewrite str_drop_length; lia |].
  assert (0 < break_at left t); [| rewrite str_drop_length; lia ].
  unfold break_at in *. destruct (space_at left t) eqn:E2; [ congruence |].
  destruct (first_word t) as (w & ws & H1 & H2 & H3).
  destruct w as [| c w].
  - (* begins with a space *)
    simpl in H3. assert (S0 : space_at 0 t = true) by (apply H3; lia).
    assert (S1 := tidy_after_space 0 t Ht S0).
    assert (0 + 1 <= word_scan left 0 false 0 t); [| lia ].
    apply word_scan_sees; try assumption; lia.
  - assert (In (String c w) (pwords t)) as Hin.
    { unfold pwords. rewrite H1. left. reflexivity. }
    specialize (Hw _ Hin). set (p := String.length (String c w)) in *.
    assert (Sp : space_at p t = true) by (apply H3; lia).
    assert (S1 := tidy_after_space p t Ht Sp).
    assert (0 + S p <= word_scan left 0 false 0 t); [| lia ].
    apply word_scan_sees; try assumption; lia.
Qed.

(** The state at the start of a continuation line, when the prefix fits. *)
Lemma lead_fits : forall g next st,
  (1 + indent_length g st + slen next <= g_page g)%N ->
  exists o st', lead g next st = Ok (o, st') /\
    p_ind st' = p_ind st /\ p_col st' = (1 + indent_length g st + slen next)%N.
Proof.
  intros g next st H. unfold lead.
  destruct (write_token_ok g next (PState (p_row st + 1) (1 + indent_length g st) (p_ind st)))
    as (row & E); [ lia |].
  unfold token_lead in E. cbn [p_col p_ind] in E.
  replace (g_page g <? 1 + indent_length g st)%N with false in E by (symmetry; apply N.ltb_ge; lia).
  replace (g_page g <? slen next)%N with false in E by (symmetry; apply N.ltb_ge; lia).
  replace (g_page g - (1 + indent_length g st) <? slen next)%N with false in E
    by (symmetry; apply N.ltb_ge; lia).
  eexists _, _. split; [ eapply and_print_intro; [ apply newline_indent_ok | exact E ] |].
  split; reflexivity.
Qed.

Lemma words_fit_cont : forall n g next t st,
  String.length t <= n -> one_line t -> tidy t ->
  p_col st = (1 + indent_length g st + slen next)%N ->
  (1 + indent_length g st + slen next + 2 < g_page g)%N ->
  (forall w, In w (pwords t) ->
     (1 + indent_length g st + slen next + slen w + 2 <= g_page g)%N) ->
  exists o st', write_flow (S n) g t next st = Ok (o, st').
Proof.
  induction n as [| n IH]; intros g next t st Hn Hol Htd Hc Hp Hw.
  - destruct t; [| simpl in Hn; lia ]. eexists _, _. rewrite write_flow_unfold. cbv zeta.
    unfold usub. rewrite Hc. replace (_ <=? g_page g)%N with true by (symmetry; apply N.leb_le; lia).
    cbn [bind]. change (slen (normalise "")) with 0%N.
    replace (_ <? 0)%N with false by (symmetry; apply N.ltb_ge; lia). reflexivity.
  - rewrite write_flow_unfold. cbv zeta. rewrite (normalise_id t Hol Htd).
    unfold usub. rewrite Hc. replace (_ <=? g_page g)%N with true by (symmetry; apply N.leb_le; lia).
    cbn [bind]. remember (g_page g - (1 + indent_length g st + slen next))%N as left eqn:Hleft.
    destruct (left <? slen t)%N eqn:El; [| eexists _, _; reflexivity ].
    replace (left =? 0)%N with false by (symmetry; apply N.eqb_neq; lia).
    apply N.ltb_lt in El. rewrite slen_length in El.
    assert (Hprog : String.length (rest_from (break_at (N.to_nat left) t) t) < String.length t).
    { apply break_progress; [ assumption | lia | lia |]. intros w Hin. specialize (Hw w Hin).
      rewrite (slen_length w) in Hw. lia. }
    set (k := break_at (N.to_nat left) t) in *.
    assert (exists s1, (if is_empty_str (str_take k t) then Ok ("", st)
                        else write_basic (str_take k t) st) = Ok (str_take k t, s1)
                       /\ p_ind s1 = p_ind st) as (s1 & E1 & Hi1).
    { destruct (is_empty_str (str_take k t)) eqn:E.
      - exists st. rewrite (is_empty_spec _ E). auto.
      - eexists. split; reflexivity. }
    assert (Hl1 : indent_length g s1 = indent_length g st).
    { unfold indent_length. rewrite Hi1. reflexivity. }
    destruct (lead_fits g next s1) as (o & s2 & E2 & Hi2 & Hc2); [ rewrite Hl1; lia |].
    assert (Hl2 : indent_length g s2 = indent_length g st).
    { unfold indent_length. rewrite Hi2, Hi1. reflexivity. }
    enough (exists o3 s3, (if is_empty_str (rest_from k t) then Ok ("", s2)
              else write_flow (S n) g (rest_from k t) next s2) = Ok (o3, s3)) as (o3 & s3 & E3).
    { eexists _, _. eapply and_print_intro; [ exact E1 |].
      eapply and_print_intro; [ exact E2 | exact E3 ]. }
    destruct (is_empty_str (rest_from k t)); [ eexists _, _; reflexivity |].
    destruct (IH g next (rest_from k t) s2) as (o3 & s3 & E3).
    + lia.
    + apply one_line_rest. assumption.
    + apply tidy_rest. assumption.
    + rewrite Hc2, Hl1, Hl2. reflexivity.
    + rewrite Hl2. assumption.
    + rewrite Hl2. intros w Hin. apply Hw.
      pose proof (rest_words (N.to_nat left) t) as E. cbv zeta in E. fold k in E.
      rewrite E. apply in_or_app. right. exact Hin.
    + rewrite E3. eauto.
Qed.

(** More fuel gives the same result. *)
Lemma flow_fuel_more : forall f g text next st o st',
  write_flow f g text next st = Ok (o, st') ->
  forall f', f <= f' -> write_flow f' g text next st = Ok (o, st').
Proof.
  induction f as [| f IH]; intros g text next st o st' H f' Hf; [ discriminate |].
  destruct f' as [| f']; [ lia |]. rewrite write_flow_unfold in *. cbv zeta in *.
  destruct (usub g (g_page g) (p_col st)) as [left | | |]; try discriminate. cbn [bind] in *.
  destruct (left <? slen (normalise text))%N; [| assumption ].
  destruct (left =? 0)%N.
  - apply and_print_ok in H. destruct H as (a & s & b & H1 & H2 & ->).
    eapply and_print_intro; [ exact H1 |]. apply IH; [ exact H2 | lia ].
  - apply and_print_ok in H. destruct H as (a & s & b & H1 & H2 & ->).
    eapply and_print_intro; [ exact H1 |]. cbv beta in *.
    apply and_print_ok in H2. destruct H2 as (a2 & s2 & b2 & H2 & H3 & ->).
    eapply and_print_intro; [ exact H2 |]. cbv beta in *.
    match goal with |- (if is_empty_str ?x then _ else _) = _ => destruct (is_empty_str x) end;
      [ exact H3 |]. apply IH; [ exact H3 | lia ].
Qed.

Lemma words_fit_stops : forall g text next st,
  (p_col st <= g_page g)%N ->
  (1 + indent_length g st + slen next + 2 < g_page g)%N ->
  (forall w, In w (words text) ->
     (1 + indent_length g st + slen next + slen w + 2 <= g_page g)%N) ->
  exists o st', write_flow (flow_fuel text) g text next st = Ok (o, st').
Proof.
  intros g text next st Hc Hp Hw.
  assert (exists f0, flow_fuel text = S f0 /\ String.length text < f0) as (f0 & Ef & Hf0).
  { unfold flow_fuel. exists (2 * String.length text + 3). lia. }
  rewrite Ef, write_flow_unfold. cbv zeta.
  pose proof (normalise_length text) as Hlen.
  pose proof (normalise_one_line text) as Hol. pose proof (normalise_tidy text) as Htd.
  rewrite <- normalise_words in Hw.
  set (t := normalise text) in *.
  unfold usub. replace (p_col st <=? g_page g)%N with true by (symmetry; apply N.leb_le; lia).
  cbn [bind]. set (left := (g_page g - p_col st)%N).
  destruct (left <? slen t)%N; [| eexists _, _; reflexivity ].
  assert (Cont : forall s2 r, p_ind s2 = p_ind st ->
    p_col s2 = (1 + indent_length g st + slen next)%N ->
    one_line r -> tidy r -> String.length r <= String.length t ->
    (forall w, In w (pwords r) -> In w (pwords t)) ->
    exists o st', write_flow f0 g r next s2 = Ok (o, st')).
  { intros s2 r Hi Hcol Hor Htr Hlr Hin.
    assert (Hl2 : indent_length g s2 = indent_length g st).
    { unfold indent_length. rewrite Hi. reflexivity. }
    destruct (words_fit_cont (String.length t) g next r s2) as (o & st' & E);
      try (rewrite Hl2; assumption); try assumption.
    - rewrite Hl2. intros w Hw2. apply Hw, Hin, Hw2.
    - exists o, st'. eapply flow_fuel_more; [ exact E | lia ]. }
  destruct (left =? 0)%N.
  - destruct (lead_fits g next st) as (o & s2 & E2 & Hi2 & Hc2); [ lia |].
    destruct (Cont s2 t) as (o3 & s3 & E3); auto.
    eexists _, _. eapply and_print_intro; [ exact E2 | exact E3 ].
  - set (k := break_at (N.to_nat left) t) in *.
    assert (exists s1, (if is_empty_str (str_take k t) then Ok ("", st)
                        else write_basic (str_take k t) st) = Ok (str_take k t, s1)
                       /\ p_ind s1 = p_ind st) as (s1 & E1 & Hi1).
    { destruct (is_empty_str (str_take k t)) eqn:E.
      - exists st. rewrite (is_empty_spec _ E). auto.
      - eexists. split; reflexivity. }
    assert (Hl1 : indent_length g s1 = indent_length g st).
    { unfold indent_length. rewrite Hi1. reflexivity. }
    destruct (lead_fits g next s1) as (o & s2 & E2 & Hi2 & Hc2); [ rewrite Hl1; lia |].
    enough (exists o3 s3, (if is_empty_str (rest_from k t) then Ok ("", s2)
              else write_flow f0 g (rest_from k t) next s2) = Ok (o3, s3)) as (o3 & s3 & E3).
    { eexists _, _. eapply and_print_intro; [ exact E1 |].
      eapply and_print_intro; [ exact E2 | exact E3 ]. }
    destruct (is_empty_str (rest_from k t)); [ eexists _, _; reflexivity |].
    destruct (Cont s2 (rest_from k t)) as (o3 & s3 & E3).
    + congruence.
    + congruence.
    + apply one_line_rest. assumption.
    + apply tidy_rest. assumption.
    + destruct (rest_length k t) as [-> | [Hless | Hnil]]; [ lia | lia |].
      rewrite Hnil. unfold rest_from. destruct k; simpl; lia.
    + intros w Hin. pose proof (rest_words (N.to_nat left) t) as E. cbv zeta in E. fold k in E.
      rewrite E. apply in_or_app. right. exact Hin.
    + rewrite E3. eauto.
Qed.

(** ** C10: lines of a re-flowed comment *)

(** After a text on the line, blanks with a line break. *)
Lemma lines_break : forall w u v,
  one_line u -> blank w -> str_contains "010" w = true ->
  exists b bs w', blank b /\ Forall blank bs /\ blank w' /\ one_line w' /\
    lines (String.append u (String.append w v))
    = String.append u b :: bs ++ lines (String.append w' v).
Proof.
  unfold lines. induction w as [| c w IH]; intros u v Hu Hw Hn; [ discriminate |].
  destruct Hw as [Hc Hw]. cbn [str_contains] in Hn.
  destruct (Ascii.eqb "010" c) eqn:E.
  - apply Ascii.eqb_eq in E. subst c.
    destruct (str_contains "010" w) eqn:En.
    + destruct (IH "" v eq_refl Hw eq_refl) as (b & bs & w' & H1 & H2 & H3 & H4 & H5).
      exists "", (b :: bs), w'. split; [ exact I |]. split; [ constructor; assumption |].
      split; [ assumption |]. split; [ assumption |].
      rewrite split_app, split_one by assumption.
      change (String.append (String "010" w) v) with (String "010" (String.append w v)).
      cbn [split_on]. change (Ascii.eqb "010" "010") with true. cbn iota.
      change (String.append "" (String.append w v)) with (String.append w v) in H5.
      rewrite H5. reflexivity.
    + exists "", [], w. split; [ exact I |]. split; [ constructor |].
      split; [ assumption |]. split; [ assumption |].
      rewrite split_app, split_one by assumption.
      change (String.append (String "010" w) v) with (String "010" (String.append w v)).
      cbn [split_on]. change (Ascii.eqb "010" "010") with true. cbn iota. reflexivity.
  - assert (c = " "%char) as ->.
    { destruct Hc as [-> | ->]; [ reflexivity | discriminate ]. }
    cbn [orb] in Hn.
    destruct (IH (String.append u " ") v) as (b & bs & w' & H1 & H2 & H3 & H4 & H5).
    + unfold one_line. rewrite str_contains_app, Hu. reflexivity.
    + assumption.
    + exact Hn.
    + exists (String " " b), bs, w'.
      split; [ split; [ left; reflexivity | assumption ] |].
      split; [ assumption |]. split; [ assumption |]. split; [ assumption |].
      rewrite !app_assoc_s in H5. exact H5.
Qed.

Lemma marked_intro : forall m w r, blank w -> marked m (String.append w (String.append m r)).
Proof. intros. right. eauto. Qed.

Lemma marked_blank : forall m w, blank w -> marked m w.
Proof. intros. left. assumption. Qed.

(** The lines of pieces that follow a marker. *)
Lemma pieces_marked : forall m tail ps s,
  pieces (String.append m tail) ps s -> Forall one_line ps ->
  one_line m -> one_line tail ->
  forall w r, blank w -> one_line w -> one_line r ->
  Forall (marked m) (lines (String.append w (String.append m (String.append r s)))).
Proof.
  intros m tail ps s H. induction H as [p | p w' ps s Hw' Hn H IH]; intros Hol Hm Ht w r Hw Hwl Hr.
  - inversion Hol; subst. unfold lines. rewrite split_one.
    + constructor; [ apply marked_intro; assumption | constructor ].
    + unfold one_line in *. rewrite !str_contains_app, Hwl, Hm, Hr, H1. reflexivity.
  - inversion Hol as [| ? ? Hp Hps]; subst.
    replace (String.append w (String.append m (String.append r
               (String.append p (String.append w' (String.append (String.append m tail) s))))))
      with (String.append (String.append w (String.append m (String.append r p)))
              (String.append w' (String.append m (String.append tail s))))
      by (rewrite !app_assoc_s; reflexivity).
    destruct (lines_break w' (String.append w (String.append m (String.append r p)))
                (String.append m (String.append tail s)))
      as (b & bs & w2 & H1 & H2 & H3 & H4 & H5); try assumption.
    { unfold one_line in *. rewrite !str_contains_app, Hwl, Hm, Hr, Hp. reflexivity. }
    rewrite H5. constructor.
    + rewrite !app_assoc_s. apply marked_intro. assumption.
    + apply Forall_app. split.
      * eapply Forall_impl; [| exact H2 ]. intros; apply marked_blank; assumption.
      * apply IH; assumption.
Qed.

(** The whole comment: marker, blank, re-flowed text. *)
Lemma comment_lines : forall g m tail text st o st',
  one_line m -> one_line tail ->
  (forall o1 st1, write_token g m st = Ok (o1, st1) -> p_col st1 <> g_page g) ->
  exec g [Tok m; Space; Flow text (String.append m tail)] st = Ok (o, st') ->
  Forall (marked m) (lines o).
Proof.
  intros g m tail text st o st' Hm Ht Hcol H. cbn [exec exec1] in H.
  apply and_print_ok in H. destruct H as (a & s & b & H1 & H2 & ->).
  specialize (Hcol _ _ H1).
  apply write_token_shape in H1. destruct H1 as [(w & Hw & ->) Hi].
  apply and_print_ok in H2. destruct H2 as (a2 & s2 & b2 & H2 & H3 & ->).
  destruct (write_space_ok g s) as (w2 & s' & E & _ & _ & [(D & _) | (_ & -> & _)]);
    [ congruence |].
  rewrite E in H2. injection H2 as <- <-.
  apply and_print_ok in H3. destruct H3 as (a3 & s3 & b3 & H3 & H4 & ->).
  injection H4 as <- <-. rewrite app_nil_r_s.
  apply write_flow_pieces in H3. destruct H3 as (ps & P1 & P2 & _).
  rewrite app_assoc_s. change (String.append "" " ") with " ".
  destruct (str_contains "010" w) eqn:En.
  - destruct (lines_break w "" (String.append m (String.append " " a3)))
      as (b0 & bs & w' & B1 & B2 & B3 & B4 & B5); try assumption; [ reflexivity |].
    change (String.append "" (String.append w (String.append m (String.append " " a3))))
      with (String.append w (String.append m (String.append " " a3))) in B5.
    rewrite B5. constructor; [ apply marked_blank; exact B1 |].
    apply Forall_app. split.
    + eapply Forall_impl; [| exact B2 ]. intros; apply marked_blank; assumption.
    + eapply pieces_marked; eauto. reflexivity.
  - eapply pieces_marked; eauto. reflexivity.
Qed.
