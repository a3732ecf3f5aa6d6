(** When a list of printing requests always succeeds: no panic among them, and
    flowing text only where the line is not over-full. *)
From Coq Require Import String Ascii List NArith Arith Bool Lia.
From Verif Require Import Base Json JsonFacts Printer SpecPrinter TextFacts LayoutFacts FlowFacts EmitFacts SpecTree TraverseFacts3.
Import ListNotations.
Open Scope string_scope.
Open Scope list_scope.

(** [near]: the column is known to be within the page. *)
Fixpoint paced (F : string -> string -> Prop) (near : bool) (l : list cmd) : Prop :=
  match l with
  | [] => True
  | Tok s :: l => paced F (slen s <=? 5)%N l
  | Space :: l => paced F near l
  | Flow t next :: l => near = true /\ F t next /\ paced F false l
  | FlowOf body next :: l =>
      near = true /\ (forall oc, exists t, print_text oc body = Ok t /\ F t next) /\ paced F false l
  | Abort _ :: _ => False
  | _ :: l => paced F false l
  end.

Lemma paced_mono F b l : paced F false l -> paced F b l.
Proof.
  destruct b; [| auto ]. induction l as [| c l IH]; [ auto |].
  destruct c; cbn [paced]; auto; intros [H _]; discriminate H.
Qed.

Lemma paced_app F a l : forall b, paced F b a -> paced F false l -> paced F b (a ++ l).
Proof.
  induction a as [| c a IH]; intros b Ha Hl; cbn [app]; [ apply paced_mono; exact Hl |].
  destruct c; cbn [paced] in *; auto; try tauto;
    destruct Ha as (H1 & H2 & H3); split; auto.
Qed.

Lemma paced_opt F b A (o : option A) f :
  (forall a, o = Some a -> paced F b (f a)) -> paced F b (opt o f).
Proof. intro H. destruct o; [ apply H; reflexivity | exact I ]. Qed.

Lemma paced_when F b x l : (x = true -> paced F b l) -> paced F b (when x l).
Proof. destruct x; cbn [when paced]; auto. Qed.

Lemma paced_each F f g l b :
  (forall v, In v l -> paced F false (f v)) -> (forall v, paced F false (g v)) ->
  paced F b (each f g l).
Proof.
  intros Hf Hg. apply paced_mono. induction l as [| x l IH]; [ exact I |]. cbn [each].
  apply paced_app; [ apply Hf; now left |]. apply paced_app.
  - destruct l; [ exact I | apply Hg ].
  - apply IH. intros v Hv. apply Hf. now right.
Qed.

Lemma paced_flat_map F A (f : A -> list cmd) l b :
  (forall v, In v l -> paced F false (f v)) -> paced F b (flat_map f l).
Proof.
  intro Hf. apply paced_mono. induction l as [| x l IH]; [ exact I |]. cbn [flat_map].
  apply paced_app; [ apply Hf; now left |]. apply IH. intros v Hv. apply Hf. now right.
Qed.

(** ** Running such requests *)

Definition page_ok (oc : bool) : std_geo oc = Geo 4 150 oc := eq_refl.

Lemma token_step oc s st : exists o st',
  write_token (std_geo oc) s st = Ok (o, st') /\ p_ind st' = p_ind st /\
  ((slen s <=? 5)%N = true -> (p_ind st <= 36)%N -> (p_col st' <= 150)%N).
Proof.
  unfold write_token, std_geo. cbn [g_page].
  assert (Hrest : forall st, (p_col st <= 150)%N -> exists o st',
    (if (150 <? slen s)%N then
       if (indent_length (Geo 4 150 oc) st <? p_col st)%N then
         write_newline st ;;; write_indent (Geo 4 150 oc) ;;; write_basic s
       else write_basic s st
     else
       let? space_left := usub (Geo 4 150 oc) 150 (p_col st) in
       (if (space_left <? slen s)%N then write_newline st ;;; write_indent (Geo 4 150 oc)
        else Ok ("", st)) ;;; write_basic s) = Ok (o, st') /\ p_ind st' = p_ind st /\
    ((slen s <=? 5)%N = true -> (p_ind st <= 36)%N -> (p_col st' <= 150)%N)).
  { intros s0 Hc. rewrite newline_indent_ok. destruct (150 <? slen s)%N eqn:E1.
    - assert (Hbig : (slen s <=? 5)%N = false).
      { apply N.ltb_lt in E1. apply N.leb_gt. lia. }
      destruct (indent_length (Geo 4 150 oc) s0 <? p_col s0)%N.
      + unfold and_print, write_basic. cbn [bind]. do 2 eexists. split; [ reflexivity |].
        split; [ reflexivity |]. intro H. rewrite Hbig in H. discriminate H.
      + unfold write_basic. do 2 eexists. split; [ reflexivity |].
        split; [ reflexivity |]. intro H. rewrite Hbig in H. discriminate H.
    - unfold usub. replace (p_col s0 <=? 150)%N with true by (symmetry; apply N.leb_le; exact Hc).
      cbn [bind]. destruct (150 - p_col s0 <? slen s)%N eqn:E2.
      + unfold and_print, write_basic. cbn [bind]. do 2 eexists. split; [ reflexivity |].
        split; [ reflexivity |]. cbn [p_col]. unfold indent_length. cbn [g_tab].
        intros H Hi. apply N.leb_le in H. lia.
      + unfold and_print, write_basic. cbn [bind]. do 2 eexists. split; [ reflexivity |].
        split; [ reflexivity |]. cbn [p_col]. intros H Hi. apply N.ltb_ge in E2. lia. }
  destruct (150 <? p_col st)%N eqn:E.
  - unfold write_newline at 1.
    destruct (Hrest (PState (p_row st + 1) 1 (p_ind st))) as (o & st' & E1 & E2 & E3);
      [ cbn [p_col]; lia |].
    unfold and_print at 1. cbn [bind]. rewrite E1. cbn [bind]. do 2 eexists.
    split; [ reflexivity |]. split; [ exact E2 | exact E3 ].
  - apply N.ltb_ge in E. destruct (Hrest st E) as (o & st' & E1 & E2 & E3).
    unfold and_print at 1. cbn [bind]. rewrite E1. cbn [bind]. do 2 eexists.
    split; [ reflexivity |]. split; [ exact E2 | exact E3 ].
Qed.

Lemma space_step oc st : exists o st',
  write_space (std_geo oc) st = Ok (o, st') /\ p_ind st' = p_ind st /\
  ((p_col st <= 150)%N -> (p_ind st <= 36)%N -> (p_col st' <= 150)%N).
Proof.
  unfold write_space, std_geo. cbn [g_page]. rewrite newline_indent_ok.
  destruct (p_col st =? 150)%N eqn:E; unfold and_print, write_basic; cbn [bind];
    do 2 eexists; (split; [ reflexivity | split; [ reflexivity |] ]); cbn [p_col];
    unfold indent_length; cbn [g_tab]; change (slen " ") with 1%N; intros H Hi.
  - lia.
  - apply N.eqb_neq in E. lia.
Qed.

(** The text flows at every indentation level up to [d]. *)
Definition flows_at (d : N) (F : string -> string -> Prop) : Prop :=
  forall t next, F t next ->
    (4 * d + slen next + 3 < 150)%N /\
    forall w, In w (words t) -> (4 * d + slen next + slen w + 3 <= 150)%N.

Lemma climb_ge l : forall h, (h <= climb h l)%N.
Proof. induction l as [| c l IH]; intro h; [ cbn; lia |]. destruct c; cbn [climb]; lia. Qed.

Lemma exec1_FlowOf g body next st :
  exec1 g (FlowOf body next) st
  = let? (text, _) := exec (std_geo (g_oc g)) body fresh in
    write_flow (flow_fuel text) g text next st.
Proof.
  cbn [exec1].
  match goal with |- bind ?a _ = bind ?b _ => assert (E : a = b) end.
  { generalize fresh. induction body as [| c l IH]; intro s; [ reflexivity |].
    cbn [exec]. unfold and_print at 1 2. destruct (exec1 (std_geo (g_oc g)) c s) as [[o s1] | | |]; try reflexivity.
    cbn [bind]. rewrite IH. reflexivity. }
  rewrite E. reflexivity.
Qed.

Lemma paced_runs F oc l : forall near st h d,
  flows_at d F -> (climb h l <= d)%N -> paced F near l ->
  (p_ind st <= h)%N -> (p_ind st <= 36)%N -> (near = true -> (p_col st <= 150)%N) ->
  exists o st', exec (std_geo oc) l st = Ok (o, st').
Proof.
  induction l as [| c l IH]; intros near st h d HF Hd Hp Hh H36 Hn; [ do 2 eexists; reflexivity |].
  cbn [exec].
  assert (Hgo : forall o1 st1 near1 h1,
    exec1 (std_geo oc) c st = Ok (o1, st1) -> (climb h1 l <= d)%N -> paced F near1 l ->
    (p_ind st1 <= h1)%N -> (p_ind st1 <= 36)%N -> (near1 = true -> (p_col st1 <= 150)%N) ->
    exists o st', exec1 (std_geo oc) c st ;;; exec (std_geo oc) l = Ok (o, st')).
  { intros o1 st1 near1 h1 E Hd1 Hp1 A B C.
    destruct (IH near1 st1 h1 d HF Hd1 Hp1 A B C) as (o2 & st2 & E2).
    rewrite E. unfold and_print. cbn [bind]. rewrite E2. cbn [bind]. do 2 eexists. reflexivity. }
  destruct c; cbn [paced climb] in Hp, Hd; try tauto.
  - destruct (token_step oc s st) as (o1 & st1 & E & E1 & E2).
    eapply (Hgo o1 st1 _ h); [ exact E | lia | exact Hp | lia | lia | auto ].
  - destruct (space_step oc st) as (o1 & st1 & E & E1 & E2).
    eapply (Hgo o1 st1 near h); [ exact E | lia | exact Hp | lia | lia | auto ].
  - eapply (Hgo _ _ false h); [ reflexivity | lia | exact Hp | cbn; lia | cbn; lia | intro X; discriminate X ].
  - eapply (Hgo _ _ false h); [ apply write_indent_ok | lia | exact Hp | cbn; lia | cbn; lia | intro X; discriminate X ].
  - eapply (Hgo _ _ false (h + 1)%N); [ reflexivity | lia | exact Hp | | | intro X; discriminate X ];
      unfold increase_indent; change (max_indent (std_geo oc)) with 36%N; cbn [p_ind];
      destruct (36 <=? p_ind st)%N eqn:E; try apply N.leb_gt in E; try apply N.leb_le in E; lia.
  - eapply (Hgo _ _ false (h - 1)%N); [ reflexivity | lia | exact Hp | | | intro X; discriminate X ];
      unfold decrease_indent; cbn [p_ind];
      destruct (p_ind st =? 0)%N eqn:E; try apply N.eqb_eq in E; lia.
  - destruct Hp as (-> & Hf & Hp). destruct (HF _ _ Hf) as [Hw1 Hw2].
    assert (Hhd : (h <= d)%N) by (pose proof (climb_ge l h); lia).
    destruct (words_fit_stops (std_geo oc) text next st) as (o1 & st1 & E).
    + apply Hn. reflexivity.
    + unfold indent_length. cbn [std_geo g_tab g_page]. lia.
    + intros w Hw. specialize (Hw2 w Hw). unfold indent_length. cbn [std_geo g_tab g_page]. lia.
    + pose proof (write_flow_pieces _ _ _ _ _ _ _ E) as (_ & _ & _ & _ & Hi).
      eapply (Hgo o1 st1 false h); [ exact E | lia | exact Hp | lia | lia | intro X; discriminate X ].
  - destruct Hp as (-> & Hf & Hp). destruct (Hf oc) as (text & Et & Hf1).
    destruct (HF _ _ Hf1) as [Hw1 Hw2].
    assert (Hhd : (h <= d)%N) by (pose proof (climb_ge l h); lia).
    destruct (words_fit_stops (std_geo oc) text next st) as (o1 & st1 & E).
    + apply Hn. reflexivity.
    + unfold indent_length. cbn [std_geo g_tab g_page]. lia.
    + intros w Hw. specialize (Hw2 w Hw). unfold indent_length. cbn [std_geo g_tab g_page]. lia.
    + pose proof (write_flow_pieces _ _ _ _ _ _ _ E) as (_ & _ & _ & _ & Hi).
      eapply (Hgo o1 st1 false h); [| lia | exact Hp | lia | lia | intro X; discriminate X ].
      rewrite exec1_FlowOf. cbn [std_geo g_oc].
      unfold print_text in Et. destruct (exec (std_geo oc) body fresh) as [[x y] | | |]; try discriminate.
      cbn [bind] in *. injection Et as ->. exact E.
Qed.

Lemma paced_prints F oc l d : flows_at d F -> (climb 0 l <= d)%N -> paced F false l ->
  exists s, print_text oc l = Ok s.
Proof.
  intros HF Hd Hp.
  destruct (paced_runs F oc l false fresh 0 d HF Hd Hp) as (o & st & E);
    [ cbn; lia | cbn; lia | intro X; discriminate X |].
  unfold print_text. rewrite E. cbn [bind]. eexists. reflexivity.
Qed.

Lemma quiet_prints oc l : paced (fun _ _ => False) false l -> exists s, print_text oc l = Ok s.
Proof.
  intro H. apply (paced_prints (fun _ _ => False) oc l (climb 0 l)); [| apply N.le_refl | exact H ].
  intros t next [].
Qed.

(** ** Parts of a node *)

Definition within (v n : json) : Prop := exists q, subtree q n = Some v.
Definition part (v n : json) : Prop := within v n /\ jdepth v < jdepth n.

Lemma within_trans a b c : within a b -> within b c -> within a c.
Proof.
  intros [q Hq] [p Hp]. exists (p ++ q). rewrite subtree_app, Hp. exact Hq.
Qed.

Lemma within_depth a b : within a b -> jdepth a <= jdepth b.
Proof.
  intros [q Hq]. revert b Hq. induction q as [| i q IH]; intros b Hq.
  - injection Hq as ->. lia.
  - cbn [subtree] in Hq. destruct (nth_error (children b) i) as [x |] eqn:E; [| discriminate ].
    apply IH in Hq. apply nth_error_In in E. destruct b; cbn [children] in E; try easy.
    + apply jdepth_elem in E. lia.
    + apply in_map_iff in E. destruct E as ([k y] & Ey & E). cbn [snd] in Ey. subst y.
      apply jdepth_value in E. lia.
Qed.

Lemma child_within v n : In v (children n) -> within v n.
Proof.
  intro H. apply In_nth_error in H. destruct H as [i Hi]. exists [i]. cbn [subtree]. rewrite Hi. reflexivity.
Qed.

Lemma part_child n v : In v (children n) -> part v n.
Proof.
  intro H. split; [ apply child_within; exact H |]. destruct n; cbn [children] in H; try easy.
  - apply jdepth_elem. exact H.
  - apply in_map_iff in H. destruct H as ([k y] & <- & H). cbn [snd]. eapply jdepth_value. exact H.
Qed.

Lemma part_within a b c : part a b -> part b c -> part a c.
Proof. intros [A1 A2] [B1 B2]. split; [ eapply within_trans; eassumption | lia ]. Qed.

Lemma part_oget n k v : oget n k = Some v -> part v n.
Proof.
  intro H. apply part_child. destruct n; try discriminate. cbn [oget] in H. cbn [children].
  apply assoc_In_pair in H. apply in_map_iff. exists (k, v). auto.
Qed.

Lemma part_arr n k l v : arr_of n k = Some l -> In v l -> part v n.
Proof.
  unfold arr_of. intros H Hv. destruct (oget n k) as [a |] eqn:E; [| discriminate ].
  destruct a; try discriminate. injection H as ->.
  apply (part_within _ (JArr l)); [ apply part_child; exact Hv | eapply part_oget; exact E ].
Qed.

Lemma part_array n k l v : plain_key k = true -> get_array n k = Some l -> In v l -> part v n.
Proof.
  unfold get_array. intros Hk. rewrite (kget_plain _ _ Hk). apply part_arr.
Qed.

Lemma get_str_field n k s : plain_key k = true -> get_str n k = Some s -> oget n k = Some (JStr s).
Proof.
  unfold get_str. intros Hk. rewrite (kget_plain _ _ Hk). destruct (oget n k) as [[] |]; cbn [as_str]; congruence.
Qed.

Lemma get_array_field n k l : plain_key k = true -> get_array n k = Some l -> oget n k = Some (JArr l).
Proof.
  unfold get_array. intros Hk. rewrite (kget_plain _ _ Hk). destruct (oget n k) as [[] |]; cbn [as_array]; congruence.
Qed.

Lemma arr_field n k l : arr_of n k = Some l -> oget n k = Some (JArr l).
Proof. unfold arr_of. destruct (oget n k) as [[] |]; cbn [as_array]; congruence. Qed.

Create HintDb pace.
#[export] Hint Resolve part_oget part_arr part_child : pace.
#[export] Hint Extern 1 (part _ _) => (eapply part_array; [ | eassumption | eassumption ]; reflexivity) : pace.
#[export] Hint Extern 2 (part _ _) =>
  (eapply part_within; [ eapply part_oget; eassumption |]; eapply part_arr; eassumption) : pace.
#[export] Hint Resolve in_eq : pace.

(** Walk through the requests of a node printer. *)
Ltac pace :=
  cbv beta;
  lazymatch goal with
  | |- True => exact I
  | |- _ = true /\ _ /\ _ => split; [ reflexivity | split; [| pace ] ]
  | |- paced _ _ [] => exact I
  | |- paced _ _ ((_ :: _) ++ _) => cbn [app]; pace
  | |- paced _ _ ((_ ++ _) ++ _) => rewrite <- app_assoc; pace
  | |- paced _ _ (_ ++ _) => apply paced_app; pace
  | |- paced _ _ (Flow _ _ :: _) => cbn [paced]; split; [ reflexivity | split; [| pace ] ]
  | |- paced _ _ (_ :: _) => cbn [paced]; pace
  | |- paced _ _ (opt _ _) => apply paced_opt; intros; pace
  | |- paced _ _ (when _ _) => apply paced_when; intros; pace
  | |- paced _ _ (sub _ _ _) => unfold sub; pace
  | |- paced _ _ (commas _ _) => unfold commas; pace
  | |- paced _ _ (each _ _ _) => apply paced_each; intros; pace
  | |- paced _ _ (flat_map _ _) => apply paced_flat_map; intros; pace
  | |- paced _ _ (if ?b then _ else _) => destruct b eqn:?; pace
  | |- paced _ _ (match ?x with _ => _ end) => destruct x eqn:?; pace
  | |- paced _ _ (let x := ?e in _) => cbv zeta; pace
  | |- paced _ ?b _ => try (solve [ apply paced_mono; eauto with pace ])
  | |- _ => idtac
  end.
