(** What the properties of the printer need besides the laws of the layout
    engine: the requests of comment nodes, one-line requests, witnesses. *)
From Coq Require Import String Ascii List NArith ZArith Bool Lia.
From Verif Require Import Base Json JsonFacts OpCommon SolMutators VyMutators Printer VyPrinter SolPrinter SpecPrinter
  TextFacts LayoutFacts FlowFacts EmitFacts VyEmit SolEmit.
Import ListNotations.
Open Scope string_scope.
Open Scope list_scope.

Lemma get_str_plain : forall n k s, plain_key k = true -> oget n k = Some (JStr s) -> get_str n k = Some s.
Proof. intros n k s P H. unfold get_str. rewrite (kget_plain _ _ P), H. reflexivity. Qed.

Lemma get_str_absent : forall n k, plain_key k = true -> oget n k = None -> get_str n k = None.
Proof. intros n k P H. unfold get_str. rewrite (kget_plain _ _ P), H. reflexivity. Qed.

(** ** The marker *)

Lemma write_token_room : forall g m st, (p_col st + slen m <= g_page g)%N ->
  write_token g m st = Ok (m, PState (p_row st) (p_col st + slen m) (p_ind st)).
Proof.
  intros g m st H. unfold write_token.
  replace (g_page g <? p_col st)%N with false by (symmetry; apply N.ltb_ge; lia).
  unfold and_print at 1. cbn [bind].
  replace (g_page g <? slen m)%N with false by (symmetry; apply N.ltb_ge; lia).
  unfold usub. replace (p_col st <=? g_page g)%N with true by (symmetry; apply N.leb_le; lia).
  cbn [bind].
  replace (g_page g - p_col st <? slen m)%N with false by (symmetry; apply N.ltb_ge; lia).
  reflexivity.
Qed.

Lemma write_space_room : forall g st, (p_col st < g_page g)%N ->
  write_space g st = Ok (" ", PState (p_row st) (p_col st + 1) (p_ind st)).
Proof.
  intros g st H. unfold write_space.
  replace (p_col st =? g_page g)%N with false by (symmetry; apply N.eqb_neq; lia).
  reflexivity.
Qed.

Lemma room_column : forall g m st, (p_col st + slen m < g_page g)%N ->
  forall o1 st1, write_token g m st = Ok (o1, st1) -> p_col st1 <> g_page g.
Proof. intros g m st H o1 st1 E. rewrite write_token_room in E by lia. injection E as _ <-. cbn. lia. Qed.

(** ** One line *)

Definition one_line_text (l : list cmd) : string :=
  fold_right (fun c t => match c with Tok s => String.append s t | Space => String " " t | _ => t end) "" l.

Lemma flat_exec : forall g l st, Forall flat1 l -> (p_col st + width l <= g_page g)%N ->
  exists st', exec g l st = Ok (one_line_text l, st').
Proof.
  intros g l. induction l as [|c l IH]; intros st F W.
  - exists st. reflexivity.
  - inversion F as [|? ? F1 F2]; subst.
    destruct c; cbn [flat1] in F1; try contradiction; cbn [exec exec1];
      cbn [width fold_right] in W; fold (width l) in W.
    + rewrite write_token_room by lia. unfold and_print. cbn [bind].
      destruct (IH (PState (p_row st) (p_col st + slen s) (p_ind st)) F2) as (st' & E); [cbn; lia|].
      rewrite E. exists st'. reflexivity.
    + rewrite write_space_room by lia. unfold and_print. cbn [bind].
      destruct (IH (PState (p_row st) (p_col st + 1) (p_ind st)) F2) as (st' & E); [cbn; lia|].
      rewrite E. exists st'. reflexivity.
    + unfold and_print. cbn [bind].
      destruct (IH (increase_indent g st) F2) as (st' & E); [cbn; lia|]. rewrite E. exists st'. reflexivity.
    + unfold and_print. cbn [bind].
      destruct (IH (decrease_indent st) F2) as (st' & E); [cbn; lia|]. rewrite E. exists st'. reflexivity.
Qed.

Lemma one_line_append : forall a b, one_line a -> one_line b -> one_line (String.append a b).
Proof.
  unfold one_line. induction a as [|c a IH]; intros b A B; [exact B|].
  cbn [String.append str_contains] in *. apply orb_false_iff in A. destruct A as [A1 A2].
  rewrite A1. now rewrite (IH b A2 B).
Qed.

Lemma flat_one_line : forall l, Forall flat1 l -> one_line (one_line_text l).
Proof.
  induction l as [|c l IH]; intros F; [reflexivity|].
  inversion F as [|? ? F1 F2]; subst. specialize (IH F2).
  destruct c; cbn [flat1] in F1; try contradiction; cbn [one_line_text fold_right]; fold (one_line_text l); try exact IH.
  now apply one_line_append.
Qed.

Lemma one_line_lines : forall s, one_line s -> lines s = [s].
Proof. intros s H. unfold lines. now apply split_one. Qed.

(** ** Comment nodes *)

Lemma sol_comment_emit : forall c n, oget n "nodeType" = Some (JStr "Comment") ->
  sol_emit c n = s_Comment c sol_emit n.
Proof.
  intros c n H. rewrite sol_emit_unfold. unfold sol_printer_for.
  rewrite (get_str_plain n "nodeType" _ eq_refl H). reflexivity.
Qed.

Lemma vy_comment_emit : forall c n, oget n "ast_type" = Some (JStr "Comment") ->
  vy_emit c n = v_Comment c vy_emit n.
Proof.
  intros c n H. rewrite vy_emit_unfold. unfold vy_printer_for.
  rewrite (get_str_plain n "ast_type" _ eq_refl H). reflexivity.
Qed.

Lemma marked_line : forall m r, marked m (String.append m r).
Proof. intros m r. right. exists "", r. split; [exact I|reflexivity]. Qed.

Lemma sol_text_comment_lines : forall g c n text st o st',
  oget n "nodeType" = Some (JStr "Comment") -> oget n "text" = Some (JStr text) -> oget n "value" = None ->
  (p_col st + slen "//" < g_page g)%N ->
  exec g (sol_emit c n) st = Ok (o, st') -> Forall (marked "//") (lines o).
Proof.
  intros g c n text st o st' Hty Htext Hval Hroom H.
  rewrite (sol_comment_emit _ _ Hty) in H. unfold s_Comment in H.
  rewrite (get_str_plain n "text" _ eq_refl Htext) in H.
  unfold sub in H. rewrite Hval in H. cbn [opt] in H.
  destruct (is_empty_str text) eqn:Et; cbn [negb when app] in H.
  - destruct (flat_exec g [Tok "//"; Space] st) as (s' & E).
    + repeat constructor.
    + cbn [width fold_right]. change (slen "//") with 2%N in *. lia.
    + rewrite E in H. injection H as <- _. cbn. constructor; [|constructor]. apply (marked_line "//" " ").
  - eapply (comment_lines g "//" " " text st o st'); [reflexivity|reflexivity| |exact H].
    now apply room_column.
Qed.

Lemma vy_text_comment_lines : forall g c n text st o st',
  oget n "ast_type" = Some (JStr "Comment") -> oget n "value" = Some (JStr text) ->
  (p_col st + slen "#" < g_page g)%N ->
  exec g (vy_emit c n) st = Ok (o, st') -> Forall (marked "#") (lines o).
Proof.
  intros g c n text st o st' Hty Hval Hroom H.
  rewrite (vy_comment_emit _ _ Hty) in H. unfold v_Comment in H. rewrite Hval in H. cbn [opt] in H.
  eapply (comment_lines g "#" " " text st o st'); [reflexivity|reflexivity| |exact H].
  now apply room_column.
Qed.

(** The requests inside [FlowOf] are executed by a printer of their own. *)
Lemma flow_of_exec : forall g body next st,
  exec1 g (FlowOf body next) st =
  bind (exec (std_geo (g_oc g)) body fresh) (fun p => write_flow (flow_fuel (fst p)) g (fst p) next st).
Proof.
  intros g body next st. cbn [exec1].
  assert (E : forall l s, (fix go (l : list cmd) (st : pstate) : pres :=
           match l with
           | [] => Ok ("", st)
           | c :: l => exec1 (std_geo (g_oc g)) c st ;;; (fun st => go l st)
           end) l s = exec (std_geo (g_oc g)) l s).
  { induction l as [|c l IH]; intros s; [reflexivity|]. cbn [exec].
    destruct (exec1 (std_geo (g_oc g)) c s) as [[t s']| | |]; try reflexivity.
    unfold and_print. cbn [bind]. rewrite IH. reflexivity. }
  rewrite E. destruct (exec (std_geo (g_oc g)) body fresh) as [[t s']| | |]; reflexivity.
Qed.

Lemma vy_node_comment_lines : forall g c n fields st o st',
  oget n "ast_type" = Some (JStr "Comment") -> oget n "value" = Some (JObj fields) ->
  (p_col st + slen "#" < g_page g)%N ->
  exec g (vy_emit c n) st = Ok (o, st') ->
  exists text ind, exec (std_geo (g_oc g)) (vy_emit c (JObj fields)) fresh = Ok (text, ind) /\
    exec g [Tok "#"; Space; Flow text "# "] st = Ok (o, st') /\
    Forall (marked "#") (lines o).
Proof.
  intros g c n fields st o st' Hty Hval Hroom H.
  rewrite (vy_comment_emit _ _ Hty) in H. unfold v_Comment in H. rewrite Hval in H. cbn [opt] in H.
  cbn [exec] in H.
  apply and_print_ok in H. destruct H as (a & s & b & H1 & H & ->).
  apply and_print_ok in H. destruct H as (a2 & s2 & b2 & H2 & H & ->).
  apply and_print_ok in H. destruct H as (a3 & s3 & b3 & H3 & H & ->).
  rewrite flow_of_exec in H3.
  destruct (exec (std_geo (g_oc g)) (vy_emit c (JObj fields)) fresh) as [[text ind]| | |] eqn:E;
    cbn [bind fst] in H3; try discriminate.
  exists text, ind. split; [reflexivity|].
  assert (X : exec g [Tok "#"; Space; Flow text "# "] st = Ok (String.append a (String.append a2 (String.append a3 b3)), st')).
  { cbn [exec]. eapply and_print_intro; [exact H1|]. eapply and_print_intro; [exact H2|].
    eapply and_print_intro; [exact H3|exact H]. }
  split; [exact X|].
  eapply (comment_lines g "#" " " text st); [reflexivity|reflexivity| |exact X].
  now apply room_column.
Qed.

(** A deleted Solidity statement whose requests ask for one line that fits. *)
Lemma sol_node_comment_line : forall g c n v st o st',
  oget n "nodeType" = Some (JStr "Comment") -> oget n "text" = None -> oget n "value" = Some v ->
  Forall flat1 (sol_emit c v) -> (p_col st + slen "// " + width (sol_emit c v) <= g_page g)%N ->
  exec g (sol_emit c n) st = Ok (o, st') -> Forall (marked "//") (lines o).
Proof.
  intros g c n v st o st' Hty Htext Hval Hflat Hroom H.
  rewrite (sol_comment_emit _ _ Hty) in H. unfold s_Comment in H.
  rewrite (get_str_absent n "text" eq_refl Htext) in H. unfold sub in H. rewrite Hval in H. cbn [opt app] in H.
  destruct (flat_exec g ([Tok "//"; Space] ++ sol_emit c v) st) as (s' & E).
  - constructor; [reflexivity|]. constructor; [exact I|]. exact Hflat.
  - cbn [app width fold_right]. fold (width (sol_emit c v)).
    change (slen "// ") with 3%N in Hroom. change (slen "//") with 2%N. lia.
  - cbn [app] in E. rewrite E in H. injection H as <- _.
    rewrite one_line_lines.
    + constructor; [|constructor]. apply (marked_line "//").
    + apply (flat_one_line ([Tok "//"; Space] ++ sol_emit c v)).
      constructor; [reflexivity|]. constructor; [exact I|]. exact Hflat.
Qed.

(** The first line always carries the marker. *)
Lemma sol_node_comment_starts : forall g c n st o st',
  oget n "nodeType" = Some (JStr "Comment") -> (p_col st + slen "//" < g_page g)%N ->
  exec g (sol_emit c n) st = Ok (o, st') -> exists rest, o = String.append "// " rest.
Proof.
  intros g c n st o st' Hty Hroom H. rewrite (sol_comment_emit _ _ Hty) in H. unfold s_Comment in H.
  cbn [app exec exec1] in H.
  apply and_print_ok in H. destruct H as (a & s & b & H1 & H & ->).
  apply and_print_ok in H. destruct H as (a2 & s2 & b2 & H2 & H & ->).
  rewrite write_token_room in H1 by lia. injection H1 as <- <-.
  rewrite write_space_room in H2 by (cbn; exact Hroom). injection H2 as <- <-.
  exists b2. reflexivity.
Qed.

(** ** Layout at the crate's geometry *)

Lemma std_room : forall oc st m, (p_ind st <= max_indent (std_geo oc))%N -> (p_col st <= indent_length (std_geo oc) st + 1)%N ->
  (slen m <= 2)%N -> (p_col st + slen m < g_page (std_geo oc))%N.
Proof.
  intros oc st m H1 H2 H3. change (max_indent (std_geo oc)) with 36%N in H1.
  unfold indent_length in H2. cbn [g_tab g_page std_geo] in *. lia.
Qed.

(** ** Witnesses *)

Fixpoint repeated (c : ascii) (n : nat) : string :=
  match n with O => "" | S n => String c (repeated c n) end.

(** A word that does not fit on a line of the crate's printer. *)
Definition long_word : string := repeated "a" 150.

Lemma long_word_loops : forall oc fuel, write_flow fuel (std_geo oc) long_word "// " fresh = Diverge.
Proof.
  intros oc. apply flow_fuel_enough. destruct oc; vm_compute; reflexivity.
Qed.
