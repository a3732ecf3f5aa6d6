(** An edit of a Vyper program that has no loose parts leaves it printable. *)
From Coq Require Import String Ascii List NArith ZArith Bool Lia.
From Verif Require Import Base Json MutationType SpecLiteral SpecPrinter SpecVyText SpecVyRead SpecVyEdit SpecVyIdle SpecVyTight VyText VyTextStmt.
Import ListNotations.
Open Scope string_scope.
Open Scope list_scope.

Definition teasy (h : nat) (t : thing) : Prop :=
  match t with TE e => easy h e | TS s => easy_stmt h s | TD d => easy_def h d | TP l => Forall (easy_def h) l end.
Definition tspelled (t : thing) : bool :=
  match t with TE e => spelled e | TS s => spelled_stmt s | TD d => spelled_def d | TP l => forallb spelled_def l end.

Lemma step_binding : forall c c' e e', step c c' (TE e) (TE e') -> binding e' = binding e.
Proof. intros c c' e e' S. inversion S; subst; reflexivity. Qed.

(** ** Lists *)

Lemma all_easy : forall h l, Forall (easy h) l -> (fix all l := match l with [] => True | e :: l => easy h e /\ all l end) l.
Proof. intros h l F. induction F; cbn; auto. Qed.
Lemma easy_block : forall h l, Forall (easy_stmt h) l -> (fix block l := match l with [] => True | s :: l => easy_stmt h s /\ block l end) l.
Proof. intros h l F. induction F; cbn; auto. Qed.
Lemma kws_easy : forall h (l : list (string * vexp)), (fix go (l : list (string * vexp)) :=
         match l with [] => True | kv :: l => (one_line (fst kv) /\ easy h (snd kv)) /\ go l end) l <-> Forall (fun kv => one_line (fst kv) /\ easy h (snd kv)) l.
Proof.
  intros h l. induction l as [|kv l IH]; split; intros H; [constructor|exact Logic.I| |].
  - destruct H as (A & B). constructor; [exact A|]. now apply IH.
  - inversion H; subst. split; [assumption|]. now apply IH.
Qed.
Lemma dict_easy : forall h (l : list (vexp * vexp)), (fix go (l : list (vexp * vexp)) :=
         match l with [] => True | kv :: l => (easy h (fst kv) /\ easy h (snd kv)) /\ go l end) l <-> Forall (fun kv => easy h (fst kv) /\ easy h (snd kv)) l.
Proof.
  intros h l. induction l as [|kv l IH]; split; intros H; [constructor|exact Logic.I| |].
  - destruct H as (A & B). constructor; [exact A|]. now apply IH.
  - inversion H; subst. split; [assumption|]. now apply IH.
Qed.
Lemma mid_Forall : forall A (P : A -> Prop) u x x' v, Forall P (u ++ x :: v) -> (P x -> P x') -> Forall P (u ++ x' :: v).
Proof.
  intros A P u x x' v F H. apply Forall_app in F. destruct F as (F1 & F2). inversion F2; subst. apply Forall_app. split; [exact F1|]. constructor; auto.
Qed.
Lemma mid_of : forall A (P : A -> Prop) u x v, Forall P (u ++ x :: v) -> P x.
Proof. intros A P u x v F. apply Forall_app in F. destruct F as (_ & F). now inversion F. Qed.

Lemma top_easy : forall e e' t t', top_step e e' t t' -> (forall h, easy h e -> easy h e') -> forall h, easy_top h t -> easy_top h t'.
Proof. intros e e' t t' S H h E. destruct S; cbn [easy_top] in *; [auto|]. exact (mid_Forall _ _ _ _ _ _ E (H h)). Qed.

(** ** One step *)

Lemma fits_sits : forall k e, sits k e <-> fits true k e.
Proof. intros k e. unfold sits, fits. intuition. Qed.
Lemma fits_5 : forall k e, k <= binding e <-> fits false k e.
Proof. intros k e. unfold fits. intuition discriminate. Qed.

Ltac atom H F := first
  [ assumption | exact Logic.I | reflexivity
  | apply H; assumption
  | match goal with
    | E : sits ?k ?e |- sits ?k ?e' => apply fits_sits; eapply F; [reflexivity|reflexivity|constructor|apply fits_sits; exact E]
    | E : 5 <= binding ?e |- 5 <= binding ?e' => apply fits_5; eapply F; [reflexivity|reflexivity|constructor|apply fits_5; exact E]
    | E : easy_top ?h ?t |- easy_top ?h ?t' => eapply top_easy; [eassumption|exact H|exact E]
    | E : Forall _ (?u ++ _ :: ?v) |- Forall _ (?u ++ _ :: ?v) => refine (mid_Forall _ _ _ _ _ _ E _)
    | E : Forall _ (?u ++ _ :: ?v) |- Forall _ (?u ++ _ :: ?v) => eapply mid_Forall; [exact E|cbn; intros; intuition]
    | |- _ = [] \/ _ ++ _ :: _ <> [] => right; intros Q; destruct (app_cons_not_nil _ _ _ (eq_sym Q))
    end ].
Ltac lists_in := repeat match goal with
  | E : ?T |- _ => lazymatch T with forall _, _ => fail | Forall _ _ => fail | _ => first [apply easy_all in E|apply block_easy in E|apply kws_easy in E|apply dict_easy in E] end
  end.
Ltac lists_out := first [apply all_easy|apply easy_block|apply kws_easy|apply dict_easy].
Ltac opened E := repeat match type of E with _ /\ _ => let E1 := fresh "E" in destruct E as (E1 & E) end.

Lemma step_easy : forall c c' t t', step c c' t t' -> (forall h, teasy h c -> teasy h c') ->
  (forall p k e e', c = TE e -> c' = TE e' -> asks p k e t -> fits p k e -> fits p k e') ->
  forall h, teasy h t -> teasy h t'.
Proof.
  intros c c' t t' S H F. destruct S; intros h E; cbn [teasy] in H.
  all: cbn [teasy easy easy_stmt easy_def oeasy easy_arg va_name va_type va_default] in E |- *; try (unfold SpecVyText.inside in *; destruct h as [|h]; [tauto|]); opened E; lists_in; repeat split; try lists_out; try (atom H F).
  all: try (exact (H _)).
  all: try (match goal with E : _ ++ _ :: _ = [] |- _ => destruct (app_cons_not_nil _ _ _ (eq_sym E)) end).
  - destruct E2 as [E2|E2]; [|right; exact E2].
    destruct (app_cons_not_nil _ _ _ (eq_sym E2)).
  - intros [A B]. exact (conj A (H _ B)).
  - destruct h as [|h]; [destruct (app_cons_not_nil _ _ _ (eq_sym E))|].
    apply dict_easy. apply dict_easy in E.
    refine (mid_Forall _ _ _ _ _ _ E _). intros [A B]. exact (conj (H _ A) B).
  - destruct h as [|h]; [destruct (app_cons_not_nil _ _ _ (eq_sym E))|].
    apply dict_easy. apply dict_easy in E.
    refine (mid_Forall _ _ _ _ _ _ E _). intros [A B]. exact (conj A (H _ B)).
  - unfold easy_arg. cbn. intros (A & B & D). exact (conj A (conj (H _ B) D)).
  - unfold easy_arg. cbn. intros (A & B & D). exact (conj A (conj B (H _ D))).
Qed.

(** ** Spelling *)

Lemma forallb_mid : forall A (p : A -> bool) u x v, forallb p (u ++ x :: v) = true <-> forallb p u = true /\ p x = true /\ forallb p v = true.
Proof. intros A p u x v. rewrite forallb_app. cbn [forallb]. rewrite !andb_true_iff. tauto. Qed.
Lemma some_mid : forall A (u v : list A) x, some (u ++ x :: v) = true.
Proof. intros A u v x. unfold some. rewrite app_length. cbn [List.length]. apply Nat.leb_le. lia. Qed.
Lemma several_mid : forall A (u v : list A) x y, several (u ++ x :: v) = several (u ++ y :: v).
Proof. intros A u v x y. unfold several. rewrite !app_length. reflexivity. Qed.

Lemma top_part_spelled : forall e e' t t', top_step e e' t t' -> spelled_top t' = true -> spelled e' = true.
Proof. intros e e' t t' S. destruct S; cbn [spelled_top]; [auto|]. rewrite andb_true_iff, forallb_mid. tauto. Qed.
Lemma type_part_spelled : forall e e' t t', top_step e e' t t' -> spelled_type t' = true -> spelled e' = true.
Proof.
  intros e e' t t' S H. apply (top_part_spelled _ _ _ _ S). destruct t' as [x|l]; [|exact H]. destruct x; try exact H. discriminate H.
Qed.

Ltac bools H := repeat (rewrite ?andb_true_iff, ?forallb_mid in H); cbn [fst snd] in H.
Lemma part_spelled : forall c c' t t', step c c' t t' -> tspelled t' = true -> tspelled c' = true.
Proof.
  intros c c' t t' S H. destruct S; cbn [tspelled spelled spelled_stmt spelled_def o_all] in *; unfold spelled_head, spelled_block, spelled_arg in *; cbn [va_name va_type va_default o_all] in *;
    bools H; try tauto; try (match goal with T : top_step _ _ _ _ |- _ => first [apply (top_part_spelled _ _ _ _ T); tauto|apply (type_part_spelled _ _ _ _ T); tauto] end).
Qed.

Lemma part_easy : forall c c' t t', step c c' t t' -> forall h, teasy h t -> exists k, teasy k c.
Proof.
  intros c c' t t' S h E. destruct S; 
  cbn [teasy easy easy_stmt easy_def oeasy easy_arg va_name va_type va_default] in E |- *; try (unfold SpecVyText.inside in *; destruct h as [|h]; [tauto|]); opened E; lists_in;
  try (match goal with E : ?u ++ _ :: ?v = [] |- _ => destruct (app_cons_not_nil _ _ _ (eq_sym E)) end);
  try (match goal with T : top_step _ _ _ _ |- _ => destruct T; cbn [easy_top] in * end);
  try (repeat match goal with E : Forall _ (_ ++ _ :: _) |- _ => apply mid_of in E; cbn [fst snd] in E end);
  try (eexists; eassumption).
  all: try (match goal with E : False |- _ => destruct E end).
  - exists h. apply E.
  - destruct h as [|h]; [destruct (app_cons_not_nil _ _ _ (eq_sym E))|]. apply dict_easy, mid_of in E. exists h. apply E.
  - destruct h as [|h]; [destruct (app_cons_not_nil _ _ _ (eq_sym E))|]. apply dict_easy, mid_of in E. exists h. apply E.
  - exists (Datatypes.S h). apply E2.
  - exists (Datatypes.S h). apply E2.
Qed.

Lemma easy_no_tuple : forall h e l, easy h e -> e <> VTuple l.
Proof. intros h e l E ->. exact E. Qed.

Lemma top_spelled_step : forall e e' t t', top_step e e' t t' -> (spelled e = true -> spelled e' = true) -> spelled_top t = true -> spelled_top t' = true.
Proof.
  intros e e' t t' S H. destruct S; cbn [spelled_top]; [auto|]. rewrite !andb_true_iff, !forallb_mid, (several_mid _ a b e e'). tauto.
Qed.
Lemma type_spelled_step : forall e e' t t', top_step e e' t t' -> (spelled e = true -> spelled e' = true) -> (forall l, e' <> VTuple l) -> spelled_type t = true -> spelled_type t' = true.
Proof.
  intros e e' t t' S H N E. assert (E1 : spelled_top t = true) by (destruct t as [x|l]; [destruct x; try exact E; discriminate E|exact E]).
  pose proof (top_spelled_step _ _ _ _ S H E1) as E2. destruct S; [|exact E2]. destruct e'; try exact E2. destruct (N l eq_refl).
Qed.

(** A name stays a name. *)
Lemma step_spelled : forall c c' t t', step c c' t t' -> (tspelled c = true -> tspelled c' = true) ->
  (forall p k e e', c = TE e -> c' = TE e' -> asks p k e t -> fits p k e -> fits p k e') ->
  (forall e' l, c' = TE e' -> e' <> VTuple l) -> (forall a, t <> TE (VNeg a)) -> tspelled t = true -> tspelled t' = true.
Proof.
  intros c c' t t' S H F N Ng E. destruct S; cbn [tspelled spelled spelled_stmt spelled_def o_all] in *; unfold spelled_head, spelled_block, spelled_arg in *; cbn [va_name va_type va_default o_all] in *;
    repeat (rewrite ?andb_true_iff, ?forallb_mid, ?some_mid in * ); cbn [fst snd] in *; try tauto.
  all: try (match goal with T : top_step _ _ ?t ?t' |- _ => pose proof (top_spelled_step _ _ _ _ T H); pose proof (type_spelled_step _ _ _ _ T H (fun l => N _ l eq_refl)); tauto end).
  - destruct (Ng _ eq_refl).
  - assert (Nat.leb 4 (binding e') = true); [|tauto]. apply Nat.leb_le, fits_5. eapply F; [reflexivity|reflexivity|constructor|]. apply fits_5, Nat.leb_le. tauto.
  - assert (Nat.leb 4 (binding e') = true); [|tauto]. apply Nat.leb_le, fits_5. eapply F; [reflexivity|reflexivity|constructor|]. apply fits_5, Nat.leb_le. tauto.
Qed.

(** ** The edits themselves *)

Lemma step_refl : forall c c' t t', step c c' t t' -> step c c t t.
Proof.
  intros c c' t t' S. destruct S; try (match goal with T : top_step _ _ _ _ |- _ => destruct T end); try solve [constructor|constructor; constructor].
  all: try solve [apply st_assign_v; constructor|apply st_assign_t; constructor].
Qed.

Lemma asks_3 : forall p k e t, asks p k e t -> 3 <= k.
Proof. intros p k e t A. destruct A; try lia. unfold left_side. destruct (op =?s "**"); lia. Qed.
Lemma asks_34 : forall k e t, asks true k e t -> k = 3 \/ k = 4.
Proof. intros k e t A. inversion A; subst; auto. unfold left_side. destruct (op =?s "**"); auto. Qed.
Lemma fits_or_not : forall p k e, fits p k e \/ ~ fits p k e.
Proof.
  intros p k e. unfold fits. destruct (Nat.le_gt_cases k (binding e)); [left; now right|].
  destruct p; [|right; intros [[Q _]|Q]; [discriminate Q|lia]]. destruct (Nat.eq_dec (binding e) 1); [left; left; now split|right; intros [[_ Q]|Q]; [auto|lia]].
Qed.
Lemma int_binding : forall z, 3 <= binding (VInt z).
Proof. intros z. cbn. destruct (z <? 0)%Z; lia. Qed.

Lemma edit_fits : forall K e e' t h p k, vy_edit K (TE e) (TE e') -> easy h e -> ~ loose K t -> asks p k e t -> fits p k e -> fits p k e'.
Proof.
  intros K e e' t h p k V E L A F. pose proof (asks_3 _ _ _ _ A) as K3. inversion V; subst; clear V; try exact F; try (now destruct F as [[-> _]|F]; [left; split; [reflexivity|reflexivity]|cbn in F; lia]).
  - exfalso. destruct F as [[_ F]|F]; cbn in F; [discriminate F|lia].
  - destruct E as (S & _). destruct F as [[_ F]|F]; [discriminate F|]. cbn in F. assert (k = 3) by lia. subst k.
    destruct p; [apply fits_sits; exact S|]. exfalso. inversion A.
  - destruct E.
  - match goal with I : In e' _ |- _ => rename I into Hi end. destruct (fits_or_not p k e') as [G|G]; [exact G|]. destruct (L (lo_call _ _ _ _ _ _ _ A Hi G)).
  - destruct p.
    + destruct (asks_34 _ _ _ A) as [->| ->]; [right; apply int_binding|]. destruct L. apply (lo_integer 0 z). now left.
    + destruct L. apply (lo_integer k z). now right.
  - match goal with B : body_edit _ _ _ |- _ => inversion B end.
  - match goal with B : body_edit _ _ _ |- _ => inversion B end.
Qed.

Lemma every_line : forall (p : ascii -> bool) s, p "010"%char = false -> every p s = true -> one_line s.
Proof.
  intros p s P. unfold one_line. induction s as [|c s IH]; cbn [every str_contains]; intros H; [reflexivity|]. apply andb_true_iff in H. destruct H as (A & B).
  destruct (Ascii.eqb_spec "010" c) as [<-|N]; [congruence|]. exact (IH B).
Qed.
Lemma span_every : forall p s a b, span p s = (a, b) -> every p a = true /\ s = String.append a b.
Proof.
  intros p s. induction s as [|c s IH]; cbn [span]; intros a b E; [injection E as <- <-; now split|].
  destruct (p c) eqn:Q; [|injection E as <- <-; now split]. destruct (span p s) as (a1 & b1). injection E as <- <-. destruct (IH a1 b1 eq_refl) as (A & ->). split; [|reflexivity]. cbn [every]. now rewrite Q.
Qed.
Lemma decimal_line : forall s, decimal s = true -> one_line s.
Proof.
  intros s. unfold decimal. destruct (span digit s) as (a & b) eqn:E. destruct (span_every _ _ _ _ E) as (A & ->). destruct b as [|c b]; [discriminate|].
  rewrite !andb_true_iff. intros ((D & P) & D2). apply PrintFacts.one_line_append; [exact (every_line digit a eq_refl A)|].
  apply Ascii.eqb_eq in P. subst c. apply andb_true_iff in D2. destruct D2 as (_ & D2). exact (every_line digit b eq_refl D2).
Qed.
Lemma text_line : forall s, every unescaped s = true -> one_line s.
Proof. intros s. apply every_line. reflexivity. Qed.

Lemma Forall_swapped : forall A (P : A -> Prop) l l', swapped l l' -> Forall P l -> Forall P l'.
Proof.
  intros A P l l' (a & x & b & y & c & -> & ->) F. apply Forall_app in F. destruct F as (Fa & F). inversion F as [|? ? Fx F1]; subst. apply Forall_app in F1. destruct F1 as (Fb & F2). inversion F2; subst.
  apply Forall_app. split; [exact Fa|]. constructor; [assumption|]. apply Forall_app. split; [exact Fb|]. now constructor.
Qed.
Lemma lines_swapped_swapped : forall l l', lines_swapped l l' -> swapped l l'.
Proof. intros l l' (a & x & b & y & c & E & E' & _). exists a, x, b, y, c. now split. Qed.
Lemma Forall_without : forall A (P : A -> Prop) a x b, Forall P (a ++ x :: b) -> Forall P (a ++ b).
Proof. intros A P a x b F. apply Forall_app in F. destruct F as (Fa & F). inversion F; subst. apply Forall_app. now split. Qed.
Lemma swapped_some : forall A (l l' : list A), swapped l l' -> l' <> [].
Proof. intros A l l' (a & x & b & y & c & -> & ->) Q. destruct (app_cons_not_nil _ _ _ (eq_sym Q)). Qed.

Definition spelled_edit (K : mutation_type) (b : bool) : Prop := K = Generic Assignment \/ K = Generic DeleteStatement -> b = true.

Lemma default_easy : forall h t, default_value t -> spelled_top t = true -> easy_top h t.
Proof.
  intros h t D S. assert (N : forall l, Forall (eq (VConst None)) l -> Forall (easy h) l) by (intros l F; induction F as [|e l <- F IH]; constructor; [exact Logic.I|exact IH]).
  destruct t as [e|l]; [|exact (N _ D)]. destruct e; try (exact Logic.I); try (destruct D; fail).
  - exact (text_line _ S).
  - apply all_easy. exact (N _ D).
Qed.
Lemma deleted_easy : forall h l l', statement_deleted l l' -> forallb spelled_stmt l' = true -> Forall (easy_stmt h) l -> Forall (easy_stmt h) l'.
Proof.
  intros h l l' D S F. destruct D as [a x b _|x l' Fi]; [exact (Forall_without _ _ _ _ _ F)|].
  destruct Fi as [| |t D]; [constructor|repeat constructor|]. constructor; [|constructor]. cbn [forallb spelled_stmt o_all] in S. rewrite andb_true_r in S. exact (default_easy h t D S).
Qed.

Lemma edit_easy : forall K c c' h, vy_edit K c c' -> spelled_edit K (tspelled c') -> ~ loose K c -> teasy h c -> teasy h c'.
Proof.
  intros K c c' h V Sp L E. destruct V; cbn [teasy easy] in *; opened E; lists_in.
  - assert (B3 : binding a <> 3) by (intros Q; exact (L (lo_power op a b H Q))).
    split; [intros I; cbn in H0, I; intuition congruence|]. split; [|auto]. destruct E1 as [E1|E1]; [now left|]. unfold left_side in *. destruct (op' =?s "**"), (op =?s "**"); right; lia.
  - split; [intros I; cbn in H0, I; intuition congruence|]. split; [|auto]. cbn in H, H0. unfold left_side in *.
    repeat (destruct H as [<-|H]); try (destruct H); repeat (destruct H0 as [<-|H0]); try (destruct H0); exact E1.
  - auto.
  - auto.
  - split; [exact E0|]. assert (sits 3 a) by (destruct E1 as [E1|E1]; [now left|right; unfold left_side in E1; destruct (op =?s "**"); lia]).
    split; [|auto]. unfold left_side. destruct (op =?s "**") eqn:Q; [|exact E2]. apply String.eqb_eq in Q. subst op.
    assert (B3 : binding b <> 3) by (intros Q; exact (L (lo_exponent a b Q))). destruct E2 as [E2|E2]; [now left|right; lia].
  - auto.
  - exact E.
  - exact E.
  - destruct E.
  - split; [apply E|exact Logic.I].
  - split; [apply E|exact Logic.I].
  - split; [apply E|]. specialize (Sp (or_introl eq_refl)). cbn in Sp. apply andb_true_iff in Sp. exact (decimal_line _ (proj2 Sp)).
  - match goal with F : Forall (easy h) args |- _ => rewrite Forall_forall in F; exact (F _ H) end.
  - repeat split; auto; [right; exact (swapped_some _ _ _ H)| |].
    + apply all_easy. match goal with F : Forall (easy h) args |- _ => exact (Forall_swapped _ _ _ _ H F) end.
    + apply kws_easy. exact E.
  - split; [exact Logic.I|]. apply E.
  - exact E.
  - exact Logic.I.
  - specialize (Sp (or_intror eq_refl)). destruct H as [decs f args ret b b' D|t i b b' D|e b b' o D]; cbn [teasy easy_def easy_stmt tspelled spelled_def spelled_stmt] in *; unfold spelled_block in *;
      rewrite !andb_true_iff in Sp; (destruct h as [|h]; [unfold SpecVyText.inside in E; tauto|]); unfold SpecVyText.inside in *.
    + destruct E as (A & B & C & R & F). repeat split; auto. exact (deleted_easy _ _ _ D (proj2 (proj2 Sp)) F).
    + destruct E as (A & B & F). repeat split; auto. apply easy_block. apply (deleted_easy _ _ _ D); [tauto|apply block_easy; exact F].
    + destruct E as (A & F & G). repeat split; auto. apply easy_block. apply (deleted_easy _ _ _ D); [tauto|apply block_easy; exact F].
  - exact (Forall_without _ _ _ _ _ E).
  - destruct H as [decs f args ret b b' D|t i b b' D|e b b' o D]; cbn [teasy easy_def easy_stmt] in *; apply lines_swapped_swapped in D;
      (destruct h as [|h]; [unfold SpecVyText.inside in E; tauto|]); unfold SpecVyText.inside in *.
    + destruct E as (A & B & C & R & F). repeat split; auto. exact (Forall_swapped _ _ _ _ D F).
    + destruct E as (A & B & F). repeat split; auto. apply easy_block. apply (Forall_swapped _ _ _ _ D), block_easy; exact F.
    + destruct E as (A & F & G). repeat split; auto. apply easy_block. apply (Forall_swapped _ _ _ _ D), block_easy; exact F.
Qed.

Lemma forallb_swapped : forall A (p : A -> bool) l l', swapped l l' -> forallb p l = true -> forallb p l' = true.
Proof. intros A p l l' S. rewrite !forallb_forall. rewrite <- !Forall_forall. now apply Forall_swapped. Qed.
Lemma some_swapped : forall A (l l' : list A), swapped l l' -> some l' = true.
Proof. intros A l l' (a & x & b & y & c & _ & ->). apply some_mid. Qed.

Lemma edit_spelled : forall K c c' h, vy_edit K c c' -> K <> Generic Assignment -> K <> Generic DeleteStatement -> teasy h c -> tspelled c = true -> tspelled c' = true.
Proof.
  intros K c c' h V NA ND Ez E. destruct V; try (destruct (NA eq_refl)); try (destruct (ND eq_refl)); cbn [tspelled spelled spelled_stmt] in *; rewrite ?andb_true_iff in *; try tauto.
  - split; [|tauto]. split; [|tauto]. cbn in H0. now repeat (destruct H0 as [<-|H0]; [reflexivity|]).
  - split; [|tauto]. split; [|tauto]. cbn in H0. now repeat (destruct H0 as [<-|H0]; [reflexivity|]).
  - split; [|tauto]. split; [|tauto]. cbn in H0. now repeat (destruct H0 as [<-|H0]; [reflexivity|]).
  - destruct E as ((_ & E) & _). rewrite forallb_forall in E. exact (E _ H).
  - destruct E as ((A & E) & B). split; [|exact B]. split; [exact A|]. exact (forallb_swapped _ _ _ _ H E).
  - destruct H as [decs f args ret b b' D|t i b b' D|e b b' o D]; cbn [tspelled spelled_def spelled_stmt] in *; apply lines_swapped_swapped in D; unfold spelled_block in *; rewrite ?andb_true_iff in *;
      pose proof (some_swapped _ _ _ D); pose proof (forallb_swapped _ spelled_stmt _ _ D); tauto.
Qed.

(** ** Edits at any depth *)

Lemma edited_fits : forall K e e' t t' h p k, edited (vy_edit K) (TE e) (TE e') -> step (TE e) (TE e') t t' -> easy h e -> ~ loose K t -> asks p k e t -> fits p k e -> fits p k e'.
Proof.
  intros K e e' t t' h p k D S E L A F. inversion D as [? ? V|c c' ? ? S1 D1]; subst; [exact (edit_fits _ _ _ _ _ _ _ V E L A F)|].
  pose proof (step_binding _ _ _ _ S1) as B. unfold fits in *. rewrite B. exact F.
Qed.

Definition calm (K : mutation_type) (t : thing) : Prop := forall x, inside x t -> ~ loose K x.
Lemma calm_part : forall K c c' t t', step c c' t t' -> calm K t -> calm K c.
Proof. intros K c c' t t' S C x I. apply C. exact (in_part _ _ _ (step_refl _ _ _ _ S) I). Qed.

Lemma edited_step : forall K c c' t t' h, edited (vy_edit K) c c' -> step c c' t t' -> calm K t -> teasy h t ->
  forall p k e e', c = TE e -> c' = TE e' -> asks p k e t -> fits p k e -> fits p k e'.
Proof.
  intros K c c' t t' h D S C E p k e e' -> -> A F. destruct (part_easy _ _ _ _ S h E) as (h1 & E1).
  exact (edited_fits K e e' t t' h1 p k D S E1 (C t (in_here t)) A F).
Qed.

Lemma edited_easy : forall K t t', edited (vy_edit K) t t' -> spelled_edit K (tspelled t') -> calm K t -> forall h, teasy h t -> teasy h t'.
Proof.
  intros K t t' D. induction D as [t t' V|c c' t t' S D IH]; intros Sp C h E; [exact (edit_easy _ _ _ _ V Sp (C t (in_here t)) E)|].
  apply (step_easy c c' t t' S); [| |exact E].
  - apply IH; [|exact (calm_part _ _ _ _ _ S C)]. intros Q. exact (part_spelled _ _ _ _ S (Sp Q)).
  - exact (edited_step K c c' t t' h D S C E).
Qed.

Lemma edited_spelled : forall K t t', edited (vy_edit K) t t' -> K <> Generic Assignment -> K <> Generic DeleteStatement -> calm K t ->
  forall h, teasy h t -> tspelled t = true -> tspelled t' = true.
Proof.
  intros K t t' D NA ND. induction D as [t t' V|c c' t t' S D IH]; intros C h E Sp; [exact (edit_spelled _ _ _ _ V NA ND E Sp)|].
  destruct (part_easy _ _ _ _ S h E) as (h1 & E1). pose proof (calm_part _ _ _ _ _ S C) as Cc.
  assert (E1' : teasy h1 c') by (apply (edited_easy K c c' D); [intros [Q|Q]; contradiction|exact Cc|exact E1]).
  apply (step_spelled c c' t t' S); [exact (IH Cc h1 E1)|exact (edited_step K c c' t t' h D S C E)| | |exact Sp].
  - intros e' l ->. exact (easy_no_tuple h1 e' l E1').
  - intros a ->. exact E.
Qed.

Lemma one_edit_easy : forall t l l' h, one_edit t l l' -> tight t l -> Forall (easy_def h) l -> spelled_edit t (forallb spelled_def l') -> Forall (easy_def h) l'.
Proof. intros t l l' h D T E Sp. exact (edited_easy t (TP l) (TP l') D Sp T h E). Qed.
Lemma one_edit_spelled : forall t l l' h, one_edit t l l' -> tight t l -> Forall (easy_def h) l -> forallb spelled_def l = true ->
  spelled_edit t (forallb spelled_def l') -> forallb spelled_def l' = true.
Proof.
  intros t l l' h D T E S Sp. assert (Q : (t = Generic Assignment \/ t = Generic DeleteStatement) \/ (t <> Generic Assignment /\ t <> Generic DeleteStatement)).
  { destruct t as [g|g]; [destruct g|right; split; discriminate]; try (left; auto; fail); right; split; discriminate. }
  destruct Q as [Q|(A & B)]; [exact (Sp Q)|]. exact (edited_spelled t (TP l) (TP l') D A B T h E S).
Qed.

(** ** A loose part does some harm *)

Definition same_sort (c c' : thing) : Prop :=
  match c, c' with TE _, TE _ | TS _, TS _ | TD _, TD _ | TP _, TP _ => True | _, _ => False end.

Lemma top_other : forall e t t1 e', top_step e e t t1 -> exists t', top_step e e' t t'.
Proof. intros e t t1 e' T. destruct T; eexists; constructor. Qed.
Lemma step_other : forall c t t1, step c c t t1 -> forall c', same_sort c c' -> exists t', step c c' t t' /\ same_sort t t'.
Proof.
  intros c t t1 S c' Q. inversion S; subst; destruct c' as [e2|s2|d2|l2]; try destruct Q;
    try (match goal with T : top_step _ _ _ _ |- _ => destruct (top_other _ _ _ e2 T) as (? & ?) end);
    (eexists; split; [solve [econstructor|econstructor; eassumption]|exact Logic.I]).
Qed.
Lemma step_back : forall c c' t t', step c c' t t' -> step c' c t' t.
Proof. intros c c' t t' S. destruct S; try (match goal with T : top_step _ _ _ _ |- _ => destruct T end); try solve [constructor|constructor; constructor|apply st_assign_v; constructor]. Qed.

Lemma inside_edited : forall (R : thing -> thing -> Prop) x t, inside x t -> forall x', edited R x x' -> same_sort x x' ->
  exists t', edited R t t' /\ same_sort t t' /\ (forall h, teasy h t' -> exists k, teasy k x') /\ (tspelled t' = true -> tspelled x' = true).
Proof.
  intros R x t I. induction I as [|c t S I IH]; intros x' E Q.
  - exists x'. split; [exact E|]. split; [exact Q|]. split; [intros h Eh; now exists h|auto].
  - destruct (IH x' E Q) as (c' & E1 & Q1 & A & B). destruct (step_other _ _ _ S c' Q1) as (t' & S' & Q').
    exists t'. split; [exact (ed_inside _ _ _ _ _ S' E1)|]. split; [exact Q'|]. split.
    + intros h Eh. destruct (part_easy _ _ _ _ (step_back _ _ _ _ S') h Eh) as (k & Ek). exact (A k Ek).
    + intros Sp. exact (B (part_spelled _ _ _ _ S' Sp)).
Qed.
Lemma inside_easy : forall x t, inside x t -> forall h, teasy h t -> exists k, teasy k x.
Proof.
  intros x t I. induction I as [|c t S I IH]; intros h E; [now exists h|]. destruct (part_easy _ _ _ _ S h E) as (k & Ek). exact (IH k Ek).
Qed.

Lemma asks_other : forall p k e x e', asks p k e x -> exists x', step (TE e) (TE e') x x' /\ asks p k e' x' /\ same_sort x x'.
Proof.
  intros p k e x e' A. destruct A; eexists; (split; [constructor|split; [constructor|exact Logic.I]]).
Qed.
Lemma asks_fits : forall p k e x h, asks p k e x -> teasy h x -> tspelled x = true -> fits p k e.
Proof.
  intros p k e x h A E S. destruct A; cbn [teasy easy easy_stmt easy_def tspelled spelled_stmt spelled_def] in E, S; try (apply fits_sits; tauto); try (apply fits_5; tauto);
    apply fits_5; rewrite !andb_true_iff in S; apply Nat.leb_le; tauto.
Qed.

Lemma loose_harm : forall K x h, loose K x -> teasy h x -> exists x', edited (vy_edit K) x x' /\ same_sort x x' /\ ((exists k, teasy k x') -> tspelled x' = true -> False).
Proof.
  intros K x h L E. destruct L as [op a b I B|a b B|k z x A|p k f args kws e x A I N].
  - exists (TE (VBin "**" a b)). split; [|split; [exact Logic.I|]].
    + apply ed_here. constructor; [exact I|cbn; tauto|]. intros <-. cbn [teasy easy] in E. destruct E as (_ & [S|S] & _); [lia|]. cbn in S. lia.
    + intros (k & _ & [S|S] & _) _; [lia|]. cbn in S. lia.
  - exists (TE (VBin "**" b a)). split; [|split; [exact Logic.I|]].
    + apply ed_here. constructor. cbn. tauto.
    + intros (k & _ & [S|S] & _) _; [lia|]. cbn in S. lia.
  - assert (A' : exists p k, asks p k (VInt z) x /\ (p = true -> k = 4) /\ (p = false -> True)) by (destruct A as [A|A]; do 2 eexists; split; [exact A|split; [reflexivity|auto]| exact A|split; [discriminate|auto]]).
    destruct A' as (p & q & A1 & Q & _). destruct (asks_other _ _ _ _ (VInt (-1)) A1) as (x' & S & A2 & So). exists x'. split; [|split; [exact So|]].
    + exact (ed_inside _ _ _ _ _ S (ed_here _ _ _ (ve_int _ _))).
    + intros (j & Ej) Sp. pose proof (asks_fits _ _ _ _ _ A2 Ej Sp) as F. destruct F as [[_ F]|F]; cbn in F; [discriminate F|].
      destruct p; [rewrite (Q eq_refl) in F; lia|]. inversion A2; subst; lia.
  - destruct (asks_other _ _ _ _ e A) as (x' & S & A2 & So). exists x'. split; [|split; [exact So|]].
    + exact (ed_inside _ _ _ _ _ S (ed_here _ _ _ (ve_call _ _ _ _ I))).
    + intros (j & Ej) Sp. exact (N (asks_fits _ _ _ _ _ A2 Ej Sp)).
Qed.

Lemma tight_exact : forall t l h, Forall (easy_def h) l -> forallb spelled_def l = true -> t <> Generic Assignment -> t <> Generic DeleteStatement ->
  (tight t l <-> forall l', one_edit t l l' -> Forall (easy_def h) l' /\ forallb spelled_def l' = true).
Proof.
  intros t l h E S NA ND. assert (Sp : forall b, spelled_edit t b) by (intros b [Q|Q]; contradiction). split.
  - intros T l' D. split; [exact (one_edit_easy t l l' h D T E (Sp _))|exact (one_edit_spelled t l l' h D T E S (Sp _))].
  - intros H x I L. destruct (inside_easy x (TP l) I h E) as (k & Ek). destruct (loose_harm t x k L Ek) as (x' & D & So & X).
    destruct (inside_edited _ x (TP l) I x' D So) as (t' & D' & So' & A & B). destruct t' as [e|s|d|l']; try destruct So'.
    destruct (H l' D') as (E' & S'). exact (X (A h E') (B S')).
Qed.
