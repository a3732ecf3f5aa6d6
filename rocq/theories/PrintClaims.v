(** The proofs behind PropPrinter.v, and the data of its examples. *)
From Coq Require Import String Ascii List NArith ZArith Bool Lia.
From Verif Require Import Base Json JsonFacts OpCommon SolMutators VyMutators Printer VyPrinter SolPrinter SpecPrinter Samples
  TextFacts LayoutFacts FlowFacts EmitFacts VyEmit SolEmit PrintFacts.
Import ListNotations.
Open Scope string_scope.
Open Scope list_scope.

Lemma comments_stay_refuted : exists g c n text st o st',
  oget n "nodeType" = Some (JStr "Comment") /\ oget n "text" = Some (JStr text) /\ oget n "value" = None /\
  exec g (sol_emit c n) st = Ok (o, st') /\ ~ Forall (marked "//") (lines o).
Proof.
  exists (Geo 1 3 true), sol_default, (sol_comment "x"), "x", fresh. eexists _, _.
  do 3 (split; [reflexivity|]). split; [vm_compute; reflexivity|].
  intros F. vm_compute in F. inversion F as [|? ? _ F2]; subst. inversion F2 as [|? ? [B|(w & r & B & E)] _]; subst.
  - cbn in B. destruct B as (_ & [B|B] & _); discriminate.
  - destruct w as [|a w]; [discriminate|]. cbn in B. destruct B as (_ & B).
    injection E as _ E. destruct w as [|b w]; [discriminate|]. injection E as <- _.
    destruct B as ([B|B] & _); discriminate.
Qed.

Lemma sol_comment_at_start : forall oc c n text st o st',
  oget n "nodeType" = Some (JStr "Comment") -> oget n "text" = Some (JStr text) -> oget n "value" = None ->
  (p_ind st <= max_indent (std_geo oc))%N -> (p_col st <= indent_length (std_geo oc) st + 1)%N ->
  exec (std_geo oc) (sol_emit c n) st = Ok (o, st') -> Forall (marked "//") (lines o).
Proof.
  intros oc c n text st o st' A B C D E F.
  eapply sol_text_comment_lines; [exact A|exact B|exact C| |exact F].
  apply std_room; [exact D|exact E|vm_compute; discriminate].
Qed.

Lemma vy_comment_at_start : forall oc c n text st o st',
  oget n "ast_type" = Some (JStr "Comment") -> oget n "value" = Some (JStr text) ->
  (p_ind st <= max_indent (std_geo oc))%N -> (p_col st <= indent_length (std_geo oc) st + 1)%N ->
  exec (std_geo oc) (vy_emit c n) st = Ok (o, st') -> Forall (marked "#") (lines o).
Proof.
  intros oc c n text st o st' A B D E F.
  eapply vy_text_comment_lines; [exact A|exact B| |exact F].
  apply std_room; [exact D|exact E|vm_compute; discriminate].
Qed.

(** Deep inside a program, at the start of a line. *)
Definition deep_state : pstate := PState 1 137 34.

(** [f({a: 1});] *)
Definition named_call : json :=
  s_stmt 5 (s_node "FunctionCall" 6 [("expression", s_ident 7 "f"); ("names", JArr [JStr "a"]);
                                     ("arguments", JArr [s_number 8 "1"])]).

Lemma deleted_refuted : exists g c stmt st o st',
  oget stmt "nodeType" = Some (JStr "ExpressionStatement") /\
  exec g (sol_emit c (sol_comment_node stmt)) st = Ok (o, st') /\ ~ Forall (marked "//") (lines o).
Proof.
  exists (std_geo true), sol_default, named_call, fresh. eexists _, _.
  split; [reflexivity|]. split; [vm_compute; reflexivity|].
  intros F. vm_compute in F. inversion F as [|? ? _ F2]; subst. inversion F2 as [|? ? _ F3]; subst.
  inversion F3 as [|? ? [B|(w & r & B & E)] _]; subst.
  - cbn in B. destruct B as ([B|B] & _); discriminate.
  - destruct w as [|a w]; [discriminate|]. cbn in B. injection E as <- _.
    destruct B as ([B|B] & _); discriminate.
Qed.

Lemma sol_comment_node_type : forall stmt, oget (sol_comment_node stmt) "nodeType" = Some (JStr "Comment").
Proof. intros stmt. unfold sol_comment_node. destruct (get_int stmt "id"); reflexivity. Qed.
Lemma sol_comment_node_text : forall stmt, oget (sol_comment_node stmt) "text" = None.
Proof. intros stmt. unfold sol_comment_node. destruct (get_int stmt "id"); reflexivity. Qed.
Lemma sol_comment_node_value : forall stmt, oget (sol_comment_node stmt) "value" = Some stmt.
Proof. intros stmt. unfold sol_comment_node. destruct (get_int stmt "id"); reflexivity. Qed.

Lemma deleted_one_line : forall g c stmt st o st',
  Forall flat1 (sol_emit c stmt) -> (p_col st + slen "// " + width (sol_emit c stmt) <= g_page g)%N ->
  exec g (sol_emit c (sol_comment_node stmt)) st = Ok (o, st') -> Forall (marked "//") (lines o).
Proof.
  intros g c stmt st o st' F W H.
  eapply sol_node_comment_line;
    [apply sol_comment_node_type|apply sol_comment_node_text|apply sol_comment_node_value|exact F|exact W|exact H].
Qed.

Lemma vy_comment_node_type : forall stmt, oget (vy_comment_node stmt) "ast_type" = Some (JStr "Comment").
Proof. intros stmt. unfold vy_comment_node. destruct (get_int stmt "node_id"); reflexivity. Qed.
Lemma vy_comment_node_value : forall stmt, oget (vy_comment_node stmt) "value" = Some stmt.
Proof. intros stmt. unfold vy_comment_node. destruct (get_int stmt "node_id"); reflexivity. Qed.

Lemma vy_deleted : forall g c stmt st o st', is_object stmt = true ->
  (p_col st + slen "#" < g_page g)%N ->
  exec g (vy_emit c (vy_comment_node stmt)) st = Ok (o, st') ->
  Forall (marked "#") (lines o) /\
  exists text st1 ps, exec (std_geo (g_oc g)) (vy_emit c stmt) fresh = Ok (text, st1) /\
    (exists out, o = String.append "# " out /\ pieces "# " ps out) /\ flat_map words ps = words text.
Proof.
  intros g c stmt st o st' Ho R H. destruct stmt as [| | | | |fields]; try discriminate Ho.
  destruct (vy_node_comment_lines g c _ fields st o st' (vy_comment_node_type _) (vy_comment_node_value _) R H)
    as (text & st1 & E & X & L).
  split; [exact L|]. cbn [exec] in X.
  apply and_print_ok in X. destruct X as (a & s & b & H1 & X & ->).
  apply and_print_ok in X. destruct X as (a2 & s2 & b2 & H2 & X & ->).
  apply and_print_ok in X. destruct X as (a3 & s3 & b3 & H3 & X & ->).
  injection X as <- <-. cbn [exec1] in H1, H2, H3.
  rewrite write_token_room in H1 by lia. injection H1 as <- <-.
  rewrite write_space_room in H2 by (cbn; exact R). injection H2 as <- <-.
  destruct (write_flow_pieces _ _ _ _ _ _ _ H3) as (ps & P & _ & W & _).
  exists text, st1, ps. split; [exact E|]. split; [|exact W].
  exists a3. split; [|exact P]. now rewrite app_nil_r_s.
Qed.

(** [if x: x = 1  else: x = 2] *)
Definition two_lines : json :=
  v_if 1 (v_name 2 "x") [v_assign 3 (v_name 4 "x") (v_int 5 1)] [v_assign 6 (v_name 7 "x") (v_int 8 2)].

Lemma wrapping_keeps_tokens : forall g l st, plain l -> (0 < g_page g)%N ->
  exists o st', exec g l st = Ok (o, st') /\ interleaved (tokens l) o /\
    strip o = fold_right String.append "" (map strip (tokens l)).
Proof.
  intros g l st P W. destruct (exec_plain_ok g l st P W) as (o & st' & E).
  pose proof (exec_interleaved _ _ _ _ _ P E) as I.
  exists o, st'. split; [exact E|]. split; [exact I|]. exact (interleaved_strip _ _ I).
Qed.

Lemma widths_from_state : forall g l st before o st', fits g (p_col st =? 1)%N (p_ind st) l ->
  one_line before -> (slen before + 1 = p_col st)%N -> (p_col st <= g_page g)%N ->
  exec g l st = Ok (o, st') ->
  Forall (fun ln => (slen ln < g_page g)%N) (lines (String.append before o)).
Proof.
  intros g l st before o st' F B C D E.
  eapply line_widths; [exact F|exact D| |exact B|exact C|exact E].
  intros Q. now apply N.eqb_eq.
Qed.

Lemma widths_from_start : forall g l o st', fits g true 0 l -> (1 <= g_page g)%N -> exec g l fresh = Ok (o, st') ->
  Forall (fun ln => (slen ln < g_page g)%N) (lines o).
Proof.
  intros g l o st' F P E. apply (widths_from_state g l fresh "" o st'); try reflexivity; assumption.
Qed.

Lemma flow_words : forall g text next st o st', exec g [Flow text next] st = Ok (o, st') ->
  exists ps, pieces next ps o /\ Forall one_line ps /\ flat_map words ps = words text.
Proof.
  intros g text next st o st' H. cbn [exec exec1] in H.
  apply and_print_ok in H. destruct H as (a & s & b & H1 & H & ->). injection H as <- <-.
  rewrite app_nil_r_s. destruct (write_flow_pieces _ _ _ _ _ _ _ H1) as (ps & P & Q & W & _).
  exists ps. repeat split; assumption.
Qed.

Lemma flowing_stops : forall g text next st,
  (p_col st <= g_page g)%N -> (1 + indent_length g st + slen next + 2 < g_page g)%N ->
  (forall w, In w (words text) -> (1 + indent_length g st + slen next + slen w + 2 <= g_page g)%N) ->
  exists fuel o st', write_flow fuel g text next st = Ok (o, st').
Proof.
  intros g text next st A B C. exists (flow_fuel text). now apply words_fit_stops.
Qed.

Lemma bookkeeping_example :
  same_but solidity_bookkeeping (s_binop 1 "+" (s_ident 2 "a") (s_ident 3 "b")) (s_binop 7 "+" (s_ident 9 "a") (s_ident 3 "b")) /\
  same_but vyper_bookkeeping (v_name 1 "a") (v_name 2 "a").
Proof.
  split; vm_compute.
  - apply Same_obj. repeat (apply Forall2_cons; [split; [reflexivity|]|]); try apply Forall2_nil;
      try (right; apply Same_refl); try (left; split; [cbn; tauto|split; exact I]).
    right. apply Same_obj. repeat (apply Forall2_cons; [split; [reflexivity|]|]); try apply Forall2_nil;
      try (right; apply Same_refl); try (left; split; [cbn; tauto|split; exact I]).
  - apply Same_obj. repeat (apply Forall2_cons; [split; [reflexivity|]|]); try apply Forall2_nil;
      try (right; apply Same_refl); try (left; split; [cbn; tauto|split; exact I]).
Qed.
