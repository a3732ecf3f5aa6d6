(** Printing when nothing has to be wrapped: the text of the requests, one after
    the other. *)
From Coq Require Import String Ascii List NArith ZArith Bool Lia.
From Verif Require Import Base Json Printer SpecPrinter SpecLiteral SpecVyText TextFacts LayoutFacts EmitFacts PrintFacts.
Import ListNotations.
Open Scope string_scope.
Open Scope list_scope.

Lemma spaces_space_string : forall n, spaces n = space_string n.
Proof. induction n; [reflexivity|]. cbn. now rewrite IHn. Qed.

Fixpoint ideal (tab ind : N) (l : list cmd) : string :=
  match l with
  | [] => ""
  | Tok s :: l => String.append s (ideal tab ind l)
  | Space :: l => String " " (ideal tab ind l)
  | Newline :: l => String.append newline (ideal tab ind l)
  | Indent :: l => String.append (margin tab ind) (ideal tab ind l)
  | Inc :: l => ideal tab (ind + 1) l
  | Dec :: l => ideal tab (ind - 1) l
  | _ :: l => ideal tab ind l
  end.

(** ** Lines *)

Lemma narrow_nl : forall p cur r, one_line cur ->
  narrow p (String.append cur (String.append newline r)) -> (slen cur < p)%N /\ narrow p r.
Proof.
  intros p cur r H N. unfold narrow, lines in *. rewrite split_app, (split_one _ _ H) in N.
  change (split_on "010" (String.append newline r)) with ("" :: split_on "010" r) in N.
  cbn [glue] in N. rewrite app_nil_r_s in N. inversion N; subst. now split.
Qed.

Lemma narrow_prefix : forall p a b, one_line a -> narrow p (String.append a b) -> (slen a < p)%N.
Proof.
  intros p a b H N. unfold narrow, lines in *. rewrite split_app, (split_one _ _ H) in N.
  cbn [glue] in N. destruct (split_on "010" b) as [|y l] eqn:E; [destruct (split_nonempty _ _ E)|].
  inversion N as [|? ? X _]; subst. rewrite slen_app in X. lia.
Qed.

Lemma margin_indent : forall g st, margin (g_tab g) (p_ind st) = indent_string g st.
Proof. intros g st. unfold margin, indent_string, indent_length. apply spaces_space_string. Qed.

Lemma one_line_spaces : forall n, one_line (spaces n).
Proof. unfold one_line. induction n; [reflexivity|]. exact IHn. Qed.

Lemma slen_margin : forall tab ind, slen (margin tab ind) = (ind * tab)%N.
Proof. intros. unfold margin. rewrite spaces_space_string, slen_spaces. lia. Qed.

Lemma climb_ge : forall l h, (h <= climb h l)%N.
Proof. induction l as [|c l IH]; intros h; [cbn; lia|]. destruct c; cbn [climb]; lia. Qed.

Lemma climb_cons : forall c l h, (climb (match c with Inc => h + 1 | Dec => h - 1 | _ => h end)%N l <= climb h (c :: l))%N.
Proof. intros c l h. destruct c; cbn [climb]; lia. Qed.

(** [cur] is what is on the line already. *)
Lemma exec_ideal : forall g l st cur,
  plain l -> Forall one_line (tokens l) -> (climb (p_ind st) l <= max_indent g)%N ->
  one_line cur -> (slen cur + 1 = p_col st)%N ->
  narrow (g_page g) (String.append cur (ideal (g_tab g) (p_ind st) l)) ->
  exists st', exec g l st = Ok (ideal (g_tab g) (p_ind st) l, st').
Proof.
  intros g l. induction l as [|c l IH]; intros st cur P T C O W N.
  - exists st. reflexivity.
  - inversion P as [|? ? P1 P2]; subst.
    pose proof (climb_cons c l (p_ind st)) as CC.
    destruct c; cbn [plain1] in P1; try contradiction; cbn [ideal] in *; cbn [exec exec1].
    + cbn [tokens flat_map app] in T. inversion T as [|? ? T1 T2]; subst.
      rewrite <- app_assoc_s in N.
      assert (O2 : one_line (String.append cur s)) by now apply one_line_append.
      pose proof (narrow_prefix _ _ _ O2 N) as R. rewrite slen_app in R.
      rewrite write_token_room by lia.
      destruct (IH (PState (p_row st) (p_col st + slen s) (p_ind st)) (String.append cur s)) as (st' & E);
        try assumption.
      * cbn [p_ind]. lia.
      * cbn [p_col]. rewrite slen_app. lia.
      * cbn [p_ind] in E. exists st'. eapply and_print_intro; [reflexivity|exact E].
    + change (String.append cur (String " " (ideal (g_tab g) (p_ind st) l)))
        with (String.append cur (String.append " " (ideal (g_tab g) (p_ind st) l))) in N.
      rewrite <- app_assoc_s in N.
      assert (O2 : one_line (String.append cur " ")) by now apply one_line_append.
      pose proof (narrow_prefix _ _ _ O2 N) as R. rewrite slen_app in R. change (slen " ") with 1%N in R.
      rewrite write_space_room by lia.
      destruct (IH (PState (p_row st) (p_col st + 1) (p_ind st)) (String.append cur " ")) as (st' & E);
        try assumption.
      * cbn [p_ind]. lia.
      * cbn [p_col]. rewrite slen_app. change (slen " ") with 1%N. lia.
      * cbn [p_ind] in E. exists st'.
        change (String " " (ideal (g_tab g) (p_ind st) l)) with (String.append " " (ideal (g_tab g) (p_ind st) l)).
        eapply and_print_intro; [reflexivity|exact E].
    + destruct (narrow_nl _ _ _ O N) as (_ & N2).
      destruct (IH (PState (p_row st + 1) 1 (p_ind st)) "") as (st' & E); try assumption; try reflexivity.
      * cbn [p_ind]. lia.
      * cbn [p_ind] in E. exists st'. eapply and_print_intro; [reflexivity|exact E].
    + rewrite <- app_assoc_s in N.
      assert (OM : one_line (margin (g_tab g) (p_ind st))) by apply one_line_spaces.
      assert (O2 : one_line (String.append cur (margin (g_tab g) (p_ind st)))) by now apply one_line_append.
      destruct (IH (PState (p_row st) (p_col st + indent_length g st) (p_ind st))
                   (String.append cur (margin (g_tab g) (p_ind st)))) as (st' & E); try assumption.
      * cbn [p_ind]. lia.
      * cbn [p_col]. rewrite slen_app, slen_margin. unfold indent_length. lia.
      * cbn [p_ind] in E. exists st'. rewrite margin_indent.
        eapply and_print_intro; [apply write_indent_ok|exact E].
    + assert (L : (p_ind st + 1 <= max_indent g)%N) by (pose proof (climb_ge l (p_ind st + 1)); lia).
      assert (I : p_ind (increase_indent g st) = (p_ind st + 1)%N).
      { unfold increase_indent. cbn [p_ind]. replace (max_indent g <=? p_ind st)%N with false; [reflexivity|].
        symmetry. apply N.leb_gt. lia. }
      destruct (IH (increase_indent g st) cur) as (st' & E); try assumption.
      * rewrite I. lia.
      * rewrite I. exact N.
      * exists st'. rewrite I in E. 
        change (Ok (ideal (g_tab g) (p_ind st + 1) l, st')) with (Ok (String.append "" (ideal (g_tab g) (p_ind st + 1) l), st')).
        eapply and_print_intro; [reflexivity|exact E].
    + assert (I : p_ind (decrease_indent st) = (p_ind st - 1)%N).
      { unfold decrease_indent. cbn [p_ind]. destruct (p_ind st =? 0)%N eqn:Z; [apply N.eqb_eq in Z; lia|reflexivity]. }
      destruct (IH (decrease_indent st) cur) as (st' & E); try assumption.
      * rewrite I. lia.
      * rewrite I. exact N.
      * exists st'. rewrite I in E.
        change (Ok (ideal (g_tab g) (p_ind st - 1) l, st')) with (Ok (String.append "" (ideal (g_tab g) (p_ind st - 1) l), st')).
        eapply and_print_intro; [reflexivity|exact E].
Qed.

(** ** Concatenation *)

(** Requests that come back to the level they started from. *)
Lemma ideal_scan : forall tab a b h h' base, scan h a = Some h' ->
  ideal tab (base + N.of_nat h) (a ++ b) =
  String.append (ideal tab (base + N.of_nat h) a) (ideal tab (base + N.of_nat h') b).
Proof.
  intros tab. induction a as [|c a IH]; intros b h h' base S.
  - injection S as <-. reflexivity.
  - destruct c; cbn [app ideal scan] in *; try (rewrite (IH b h h' base S); rewrite ?app_assoc_s; reflexivity).
    + replace (base + N.of_nat h + 1)%N with (base + N.of_nat (Datatypes.S h))%N by lia. apply IH. exact S.
    + destruct h as [|h]; [discriminate|].
      replace (base + N.of_nat (Datatypes.S h) - 1)%N with (base + N.of_nat h)%N by lia. apply IH. exact S.
Qed.

Lemma ideal_app : forall tab a b ind, balanced a ->
  ideal tab ind (a ++ b) = String.append (ideal tab ind a) (ideal tab ind b).
Proof.
  intros tab a b ind B. pose proof (ideal_scan tab a b 0 0 ind (B 0)) as H.
  cbn in H. now rewrite !N.add_0_r in H.
Qed.
