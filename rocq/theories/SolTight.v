(** An edit of a Solidity program that has no loose parts leaves it printable. *)
From Coq Require Import String Ascii List NArith ZArith Bool Lia.
From Verif Require Import Base Json MutationType SpecLiteral SpecPrinter SpecVyText SpecSolText SpecSolRead SpecSolEdit SpecSolIdle SpecSolTight SolText SolTextStmt SolTextClaims SolTightLevel.
Import ListNotations.
Open Scope string_scope.
Open Scope list_scope.
From Verif Require VyText.
Local Notation S := Datatypes.S.

Definition tspelled (t : thing) : bool :=
  match t with
  | TE e => spelled e | TV v => type_spelled (sv_type v) && maybe exp_spelled (sv_value v) | TS s => stmt_spelled s | TM m => member_spelled m
  | TP p => top_spelled p | TU l => forallb top_spelled l
  end.

(** ** What an expression looks like from outside *)

Definition heads (e e' : sexp) : Prop :=
  tightness e' = tightness e /\ is_new e' = is_new e /\ is_bare e' = is_bare e /\ forall op, sticks op e' = sticks op e.
Lemma step_heads : forall c c' e e', step c c' (TE e) (TE e') -> heads e e'.
Proof. intros c c' e e' S. inversion S; subst; unfold heads; repeat split; reflexivity. Qed.

Definition is_mvar (m : smember) : bool := match m with MVar _ => true | _ => false end.
Definition shape (c c' : thing) : Prop :=
  match c, c' with
  | TS s, TS s' => is_cblock s' = is_cblock s /\ is_simple s' = is_simple s /\ (open_if s = false -> open_if s' = false)
  | TM m, TM m' => is_mvar m' = is_mvar m
  | TE _, TE _ | TV _, TV _ | TP _, TP _ | TU _, TU _ => True
  | _, _ => False
  end.
Lemma step_shape : forall c c' t t', step c c' t t' -> shape c c' -> shape t t'.
Proof. intros c c' t t' S H. destruct S; cbn [shape] in *; try exact Logic.I; try (repeat split; cbn; tauto). Qed.

(** What is put into a place that asks for something has it. *)
Definition fitting (c c' t : thing) : Prop :=
  forall e e', c = TE e -> c' = TE e' -> heads e e' \/ forall P, asks P e t -> P e' = true.

Lemma fitting_binds : forall e e' t k, fitting (TE e) (TE e') t -> asks (binds k) e t -> k <= tightness e -> k <= tightness e'.
Proof.
  intros e e' t k F A L. destruct (F e e' eq_refl eq_refl) as [(H & _)|G]; [now rewrite H|]. apply Nat.leb_le. exact (G _ A).
Qed.
Lemma fitting_prefix : forall e e' op, fitting (TE e) (TE e') (TE (XPre op e)) -> 15 <= tightness e -> sticks op e = false -> 15 <= tightness e' /\ sticks op e' = false.
Proof.
  intros e e' op F L St. destruct (F e e' eq_refl eq_refl) as [(H & _ & _ & G)|G]; [now rewrite H, G|]. specialize (G _ (as_prefix _ _)). apply andb_true_iff in G. destruct G as (A & B).
  split; [now apply Nat.leb_le|now apply negb_true_iff].
Qed.
Lemma fitting_member : forall e e' x, fitting (TE e) (TE e') (TE (XMember e x)) -> 16 <= tightness e -> 16 <= tightness e'.
Proof.
  intros e e' op F L. destruct (F e e' eq_refl eq_refl) as [(H & _)|G]; [now rewrite H|]. specialize (G _ (as_member _ _)). rewrite !andb_true_iff in G. apply Nat.leb_le, G.
Qed.
Lemma fitting_index : forall e e' x, fitting (TE e) (TE e') (TE (XIndex e x)) -> 16 <= tightness e -> 16 <= tightness e'.
Proof.
  intros e e' op F L. destruct (F e e' eq_refl eq_refl) as [(H & _)|G]; [now rewrite H|]. specialize (G _ (as_index _ _)). rewrite !andb_true_iff in G. apply Nat.leb_le, G.
Qed.

(** ** Lists *)

Lemma mid_up : forall A (P Q : A -> Prop) u x x' v, Forall P (u ++ x :: v) -> (forall y, P y -> Q y) -> (P x -> Q x') -> Forall Q (u ++ x' :: v).
Proof.
  intros A P Q u x x' v F U H. apply Forall_app in F. destruct F as (F1 & F2). inversion F2; subst. apply Forall_app. split; [exact (Forall_impl _ U F1)|]. constructor; [auto|]. eapply Forall_impl; [exact U|assumption].
Qed.
Lemma mid_of : forall A (P : A -> Prop) u x v, Forall P (u ++ x :: v) -> P x.
Proof. intros A P u x v F. apply Forall_app in F. destruct F as (_ & F). now inversion F. Qed.
Lemma mid_some : forall A (u v : list A) x, u ++ x :: v <> [].
Proof. intros A u v x Q. destruct (app_cons_not_nil _ _ _ (eq_sym Q)). Qed.
Lemma forallb_mid : forall A (p : A -> bool) u x v, forallb p (u ++ x :: v) = true <-> forallb p u = true /\ p x = true /\ forallb p v = true.
Proof. intros A p u x v. rewrite forallb_app. cbn [forallb]. rewrite !andb_true_iff. tauto. Qed.
Lemma some_mid : forall A (u v : list A) x, some (u ++ x :: v) = true.
Proof. intros A [|y u] v x; reflexivity. Qed.

(** ** One step *)

Lemma body_step : forall s s' h, shape (TS s) (TS s') -> (forall h, ceasy h s -> ceasy (S h) s') -> body_easy h s -> body_easy (S h) s'.
Proof.
  intros s s' h (A & _) H. unfold body_easy. rewrite A. destruct (is_cblock s); [apply H|]. destruct h as [|h]; [intros []|]. cbn [SpecVyText.inside]. apply H.
Qed.
Lemma param_step : forall (c c' : thing) v v' h, easy_var h v -> (forall h, teasy h (TV v) -> teasy (S h) (TV v')) -> easy_var (S h) v'.
Proof. intros c c' v v' h E H. exact (H h E). Qed.

Ltac up := first [apply xeasy_up|apply xeasys_up|apply xmaybe_up|apply var_up|apply vars_up|apply ceasy_up|apply call_up|apply calls_up|apply member_up|apply top_up|apply body_up; [apply ceasy_up|]].

Lemma step_easy : forall c c' t t', step c c' t t' -> shape c c' -> (forall h, teasy h c -> teasy (S h) c') -> fitting c c' t ->
  forall h, teasy h t -> teasy (S h) t'.
Proof.
  intros c c' t t' St Sh H F. destruct St; intros h E; cbn [teasy] in H, E |- *; cbn [xeasy] in E |- *; try (exact (False_ind _ E)).
  - (* binary *) destruct E as (A & B & C & D). split; [exact (fitting_binds _ _ _ _ F (as_left _ _ _) A)|]. split; [exact B|]. split; [exact (H _ C)|exact (xeasy_up _ _ D)].
  - destruct E as (A & B & C & D). split; [exact A|]. split; [exact (fitting_binds _ _ _ _ F (as_right _ _ _) B)|]. split; [exact (xeasy_up _ _ C)|exact (H _ D)].
  - destruct E as (A & B & C & D). destruct (fitting_prefix _ _ _ F B C). repeat split; auto.
  - destruct E as (A & B & C). split; [exact A|]. split; [exact (fitting_binds _ _ _ _ F (as_postfix _ _) B)|exact (H _ C)].
  - destruct E as (A & B & C & D). split; [exact (fitting_binds _ _ _ _ F (as_condition _ _ _) A)|]. split; [exact (H _ B)|]. split; apply xeasy_up; assumption.
  - destruct E as (A & B & C & D). split; [exact A|]. split; [exact (xeasy_up _ _ B)|]. split; [exact (H _ C)|exact (xeasy_up _ _ D)].
  - destruct E as (A & B & C & D). split; [exact A|]. split; [exact (xeasy_up _ _ B)|]. split; [exact (xeasy_up _ _ C)|exact (H _ D)].
  - destruct E as (A & B & C & D). split; [exact A|]. split; [exact (fitting_binds _ _ _ _ F (as_target _ _ _) B)|]. split; [exact (H _ C)|exact (xeasy_up _ _ D)].
  - destruct E as (A & B & C & D). split; [exact A|]. split; [exact B|]. split; [exact (xeasy_up _ _ C)|exact (H _ D)].
  - (* call *) destruct E as (A & B & C). split; [exact (fitting_binds _ _ _ _ F (as_function _ _) A)|]. split; [exact (H _ B)|]. apply fix_all, xeasys_up, fix_all, C.
  - destruct E as (A & B & C). split; [exact A|]. split; [exact (xeasy_up _ _ B)|]. apply fix_all. apply fix_all in C. exact (mid_up _ _ _ _ _ _ _ C (fun y => xeasy_up y h) (H h)).
  - destruct E as (A & B & C). split; [exact (fitting_binds _ _ _ _ F (as_named _ _) A)|]. split; [exact (H _ B)|]. destruct h as [|h]; [destruct C|]. cbn [SpecVyText.inside] in *.
    apply fix_named. apply fix_named in C. revert C. apply Forall_impl. intros kv (P & Q). split; [exact P|exact (xeasy_up _ _ Q)].
  - destruct E as (A & B & C). split; [exact A|]. split; [exact (xeasy_up _ _ B)|]. destruct h as [|h]; [destruct C|]. cbn [SpecVyText.inside] in *.
    apply fix_named. apply fix_named in C. refine (mid_up _ _ _ _ _ _ _ C _ _); intros; unfold pair_easy in *; cbn [fst snd] in *; intuition auto using xeasy_up.
  - destruct E as (A & B & N & C). split; [exact (fitting_binds _ _ _ _ F (as_options _ _) A)|]. split; [exact (H _ B)|]. split; [exact N|].
    apply fix_named. apply fix_named in C. revert C. apply Forall_impl. intros kv (P & Q). split; [exact P|exact (xeasy_up _ _ Q)].
  - destruct E as (A & B & N & C). split; [exact A|]. split; [exact (xeasy_up _ _ B)|]. split; [apply mid_some|].
    apply fix_named. apply fix_named in C. refine (mid_up _ _ _ _ _ _ _ C _ _); intros; unfold pair_easy in *; cbn [fst snd] in *; intuition auto using xeasy_up.
  - (* member *) destruct E as (A & B & C). split; [exact (fitting_member _ _ _ F A)|]. split; [exact (H _ B)|exact C].
  - destruct E as (A & B & C). split; [exact (fitting_index _ _ _ F A)|]. split; [exact (H _ B)|]. destruct i as [i|]; [exact (xeasy_up _ _ C)|exact Logic.I].
  - destruct E as (A & B & C). split; [exact A|]. split; [exact (xeasy_up _ _ B)|exact (H _ C)].
  - (* tuple *) destruct E as (N & C). split; [apply mid_some|]. apply fix_maybe. apply fix_maybe in C. exact (mid_up _ _ _ _ (Some e) (Some e') _ C (fun y => xmaybe_up y h) (H h)).
  - exact (H _ E).
  - destruct E as (A & B & C & D). split; [exact A|]. split; [exact B|]. split; [exact (H _ C)|exact (xeasy_up _ _ D)].
  - destruct E as (A & B & C & D). split; [exact A|]. split; [exact B|]. split; [exact (xeasy_up _ _ C)|exact (H _ D)].
  - destruct E as (A & B). split; [exact (H _ A)|]. destruct len as [e|]; [exact (xeasy_up _ _ B)|exact Logic.I].
  - destruct E as (A & B). split; [exact (xeasy_up _ _ A)|exact (H _ B)].
  - (* variables *) destruct E as (A & B & C & D & E & G & J). split; [exact (H _ A)|]. repeat split; try assumption. exact (xmaybe_up _ _ J).
  - destruct E as (A & B & C & D & E & G & J). split; [exact (xeasy_up _ _ A)|]. repeat split; try assumption. rewrite H0 in J. exact (H _ J).
  - (* statements *) exact (H _ E).
  - destruct E as (A & B). split; [|exact (xmaybe_up _ _ B)]. refine (mid_up _ _ _ _ (Some x) (Some x') _ A _ (H h)). intros y. apply oeasy_up. intros w. apply var_up.
  - destruct E as (A & B). split; [|exact (H _ B)]. revert A. apply Forall_impl. intros y. apply oeasy_up. intros w. apply var_up.
  - destruct E as [E|E]; [destruct (mid_some _ _ _ _ E)|right]. destruct h as [|h]; [destruct E|]. cbn [SpecVyText.inside] in *. apply fix_stmts. apply fix_stmts in E. exact (mid_up _ _ _ _ _ _ _ E (fun y => ceasy_up y h) (H h)).
  - destruct E as (A & B & C & D). split; [exact (H _ A)|]. split; [exact (body_up a h (ceasy_up a) B)|]. split; [exact C|]. destruct b as [b|]; [exact (body_up b h (ceasy_up b) D)|exact Logic.I].
  - destruct E as (A & B & C & D). split; [exact (xeasy_up _ _ A)|]. split; [exact (body_step _ _ h Sh H B)|]. split; [destruct Sh as (S1 & _ & S2); rewrite S1; intuition|]. destruct b as [b|]; [exact (body_up b h (ceasy_up b) D)|exact Logic.I].
  - destruct E as (A & B & C & D). split; [exact (xeasy_up _ _ A)|]. split; [exact (body_up a h (ceasy_up a) B)|]. split; [intuition discriminate|]. exact (body_step _ _ h Sh H D).
  - destruct E as (A & B). split; [exact (H _ A)|exact (ceasy_up _ _ B)].
  - destruct E as (A & B). split; [exact (xeasy_up _ _ A)|exact (H _ B)].
  - destruct E as (A & B). split; [exact (H _ A)|exact (ceasy_up _ _ B)].
  - destruct E as (A & B). split; [exact (xeasy_up _ _ A)|exact (H _ B)].
  - destruct E as (A & B & C & D). split; [exact (H _ A)|]. split; [destruct e as [e|]; [exact (xeasy_up _ _ B)|exact B]|]. split; [exact (xmaybe_up _ _ C)|exact (body_up s h (ceasy_up s) D)].
  - destruct E as (A & B & C & D). split; [destruct i as [i|]; [exact (ceasy_up _ _ A)|exact A]|]. split; [exact (H _ B)|]. split; [exact (xmaybe_up _ _ C)|exact (body_up s h (ceasy_up s) D)].
  - destruct E as (A & B & C & D). split; [destruct i as [i|]; [exact (ceasy_up _ _ A)|exact A]|]. split; [destruct e as [e|]; [exact (xeasy_up _ _ B)|exact B]|]. split; [exact (H _ C)|exact (body_up s h (ceasy_up s) D)].
  - destruct E as (A & B & C & D). split; [destruct i as [i|]; [exact (ceasy_up _ _ A)|exact A]|]. split; [destruct e as [e|]; [exact (xeasy_up _ _ B)|exact B]|]. split; [exact (xmaybe_up _ _ C)|exact (body_step _ _ h Sh H D)].
  - exact (H _ E).
  - exact (H _ E).
  - exact (H _ E).
  - (* members *) exact (H _ E).
  - pose proof (member_up _ _ E) as E2. destruct E as (_ & _ & C & _). rewrite H0 in C. destruct E2 as (A2 & B2 & _ & R2). split; [exact A2|]. split; [exact B2|]. split; [|exact R2]. exact (mid_up _ _ _ _ _ _ _ C (fun y => var_up y h) (H h)).
  - pose proof (member_up _ _ E) as E2. destruct E as (_ & _ & _ & _ & _ & _ & _ & L & C & _). rewrite H0 in C, L.
    destruct E2 as (A2 & B2 & C2 & D2 & E2 & F2 & G2 & H2 & J2 & K2). do 7 (split; [assumption|]). split; [cbn; rewrite app_length in *; cbn in *; exact L|]. split; [|exact K2].
    refine (mid_up _ _ _ _ _ _ _ C (fun y => call_up y h) _). intros (P & Q). split; [exact (xeasy_up _ _ P)|]. cbn [snd oeasy] in *. exact (mid_up _ _ _ _ _ _ _ Q (fun y => xeasy_up y h) (H h)).
  - pose proof (member_up _ _ E) as E2. destruct E as (_ & _ & _ & _ & _ & _ & _ & _ & _ & C & _). rewrite H0 in C.
    destruct E2 as (A2 & B2 & C2 & D2 & E2 & F2 & G2 & H2 & J2 & _ & L2). do 9 (split; [assumption|]). split; [|exact L2]. exact (mid_up _ _ _ _ _ _ _ C (fun y => var_up y h) (H h)).
  - pose proof (member_up _ _ E) as E2. destruct E as (_ & _ & _ & _ & _ & _ & _ & _ & _ & _ & C). rewrite H0 in C.
    destruct E2 as (A2 & B2 & C2 & D2 & E2 & F2 & G2 & H2 & J2 & K2 & _). do 10 (split; [assumption|]). exact (H _ C).
  - destruct E as (A & B & C & D). split; [exact A|]. split; [exact (mid_up _ _ _ _ _ _ _ B (fun y => var_up y h) (H h))|]. split; [exact C|]. destruct b as [b|]; [exact (ceasy_up _ _ D)|exact D].
  - destruct E as (A & B & C & D). split; [exact A|]. split; [exact (vars_up _ _ B)|]. split; [exact C|exact (H _ D)].
  - destruct E as (A & B). split; [exact A|]. exact (mid_up _ _ _ _ _ _ _ B (fun y => var_up y h) (H h)).
  - destruct E as (A & B). split; [exact A|]. exact (mid_up _ _ _ _ _ _ _ B (fun y => var_up y h) (H h)).
  - destruct E as (A & B). split; [exact A|]. destruct h as [|h]; [destruct B|]. exact (mid_up _ _ _ _ _ _ _ B (fun y => var_up y h) (H h)).
  - destruct E as (A & B). split; [exact (xeasy_up _ _ A)|exact (H _ B)].
  - destruct E as (A & B & C & D). split; [exact A|]. split; [exact B|]. split; [exact (H _ C)|exact Logic.I].
  - (* outside *) destruct E as (A & B & C & D). split; [exact A|]. split; [exact B|]. split.
    + refine (mid_up _ _ _ _ _ _ _ C (fun y => call_up y h) _). intros (P & Q). split; [exact (xeasy_up _ _ P)|]. cbn [snd oeasy] in *. exact (mid_up _ _ _ _ _ _ _ Q (fun y => xeasy_up y h) (H h)).
    + destruct D as [D|D]; [now left|right]. destruct h as [|h]; [destruct D|]. cbn [SpecVyText.inside] in *. revert D. apply Forall_impl. intros y. apply member_up.
  - destruct E as (A & B & C & D). split; [exact A|]. split; [exact B|]. split; [exact (calls_up _ _ C)|]. destruct D as [D|D]; [destruct (mid_some _ _ _ _ D)|right]. destruct h as [|h]; [destruct D|]. cbn [SpecVyText.inside] in *.
    exact (mid_up _ _ _ _ _ _ _ D (fun y => member_up y h) (H h)).
  - cbn [easy_top_level] in *. cbn [shape] in Sh. destruct m'; destruct m; try discriminate Sh; try exact E; exact (H _ E).
  - exact (mid_up _ _ _ _ _ _ _ E (fun y => top_up y h) (H h)).
Qed.

(** ** The edits themselves *)

Lemma not_loose_operand : forall K x x' P e, sol_edit K (TE x) (TE x') -> ~ loose K (TE x) -> asks P e (TE x') -> P e = true.
Proof. intros K x x' P e V L A. destruct (P e) eqn:Q; [reflexivity|]. destruct (L (lo_operand _ _ _ _ _ V A Q)). Qed.

Lemma Forall_swapped : forall A (P : A -> Prop) l l', swapped l l' -> Forall P l -> Forall P l'.
Proof.
  intros A P l l' (a & x & b & y & c & -> & ->) F. apply Forall_app in F. destruct F as (Fa & F). inversion F as [|? ? Fx F1]; subst. apply Forall_app in F1. destruct F1 as (Fb & F2). inversion F2; subst.
  apply Forall_app. split; [exact Fa|]. constructor; [assumption|]. apply Forall_app. split; [exact Fb|]. now constructor.
Qed.
Lemma Forall_without : forall A (P : A -> Prop) a x b, Forall P (a ++ x :: b) -> Forall P (a ++ b).
Proof. intros A P a x b F. apply Forall_app in F. destruct F as (Fa & F). inversion F; subst. apply Forall_app. now split. Qed.

(** Keys and values. *)
Lemma Forall_split : forall A B (P : A -> Prop) (Q : B -> Prop) (l : list (A * B)), Forall (fun kv => P (fst kv) /\ Q (snd kv)) l <-> Forall P (map fst l) /\ Forall Q (map snd l).
Proof.
  intros A B P Q l. rewrite !Forall_map. split; intros H; [split; (eapply Forall_impl; [|exact H]); cbn; tauto|]. destruct H as (H & G). rewrite !Forall_forall in *. auto.
Qed.
Lemma swapped_values : forall (Q : sexp -> Prop) (P : string -> Prop) l l', map fst l' = map fst l -> swapped (map snd l) (map snd l') ->
  Forall (fun kv => P (fst kv) /\ Q (snd kv)) l -> Forall (fun kv => P (fst kv) /\ Q (snd kv)) l'.
Proof.
  intros Q P l l' E S F. apply Forall_split in F. destruct F as (A & B). apply Forall_split. rewrite E. split; [exact A|exact (Forall_swapped _ _ _ _ S B)].
Qed.

Lemma negated_easy : forall h e, xeasy h e -> xeasy h (negated e).
Proof. intros h e E. cbn. repeat split; [lia|discriminate|exact E]. Qed.

Lemma edit_easy : forall K c c' h, sol_edit K c c' -> ~ loose K c -> teasy h c -> teasy (S h) c'.
Proof.
  intros K c c' h V L E. pose proof V as V0. destruct V; cbn [teasy xeasy] in E |- *.
  - destruct E as (_ & _ & C & D). pose proof (not_loose_operand _ _ _ _ _ V0 L (as_left _ _ _)) as A1. pose proof (not_loose_operand _ _ _ _ _ V0 L (as_right _ _ _)) as A2.
    apply Nat.leb_le in A1, A2. auto using xeasy_up.
  - destruct E as (_ & _ & C & D). pose proof (not_loose_operand _ _ _ _ _ V0 L (as_left _ _ _)) as A1. pose proof (not_loose_operand _ _ _ _ _ V0 L (as_right _ _ _)) as A2.
    apply Nat.leb_le in A1, A2. auto using xeasy_up.
  - destruct E as (_ & _ & _ & D). pose proof (not_loose_operand _ _ _ _ _ V0 L (as_prefix _ _)) as A1. apply andb_true_iff in A1. destruct A1 as (A1 & A2). apply Nat.leb_le in A1. apply negb_true_iff in A2.
    split; [|auto using xeasy_up]. cbn in H0. repeat (destruct H0 as [<-|H0]; [reflexivity|]). destruct H0.
  - destruct E as (_ & A & D). split; [|auto using xeasy_up]. cbn in H0. repeat (destruct H0 as [<-|H0]; [reflexivity|]). destruct H0.
  - destruct E as (A & B & C & _). split; [exact A|]. split; [exact B|]. split; [exact (xeasy_up _ _ C)|]. split; [apply VyText.show_Z_line|exact Logic.I].
  - destruct E as (A & B & C & _). split; [exact A|]. split; [exact B|]. split; [exact (xeasy_up _ _ C)|]. split; [reflexivity|exact Logic.I].
  - destruct E as [E|E]; [destruct (mid_some _ _ _ _ E)|right]. destruct h as [|h]; [destruct E|]. cbn [SpecVyText.inside] in *. apply fix_stmts. apply fix_stmts, Forall_without in E. revert E. apply Forall_impl. intros y. apply ceasy_up.
  - destruct E as (_ & _ & E). apply fix_all in E. rewrite Forall_forall in E. exact (xeasy_up _ _ (E _ H)).
  - destruct E as (_ & _ & E). destruct h as [|h]; [destruct E|]. cbn [SpecVyText.inside] in E. apply fix_named in E. unfold pair_easy in E. apply (Forall_split _ _ one_line (xeasy h)) in E. destruct E as (_ & E). rewrite Forall_forall in E. exact (xeasy_up _ _ (xeasy_up _ _ (E _ H))).
  - destruct E as (A & B & E). split; [exact A|]. split; [exact (xeasy_up _ _ B)|]. apply fix_all. apply fix_all in E. exact (xeasys_up _ _ (Forall_swapped _ _ _ _ H E)).
  - destruct E as (A & B & E). split; [exact A|]. split; [exact (xeasy_up _ _ B)|]. destruct h as [|h]; [destruct E|]. cbn [SpecVyText.inside] in *. apply fix_named. apply fix_named in E.
    pose proof (swapped_values (xeasy h) one_line _ _ H H0 E) as G. revert G. apply Forall_impl. intros kv (P & Q). split; [exact P|exact (xeasy_up _ _ Q)].
  - destruct E as (_ & B & C & D). split; [split; [destruct b; reflexivity|exact Logic.I]|]. split; [exact (body_up a h (ceasy_up a) B)|]. split; [exact C|]. destruct o as [o|]; [exact (body_up o h (ceasy_up o) D)|exact Logic.I].
  - destruct E as (A & B & C & D). split; [exact (xeasy_up _ _ (negated_easy _ _ A))|]. split; [exact (body_up a h (ceasy_up a) B)|]. split; [exact C|]. destruct o as [o|]; [exact (body_up o h (ceasy_up o) D)|exact Logic.I].
  - split; [apply VyText.show_Z_line|apply E].
  - destruct E as [E|E]; [subst l; destruct (mid_some _ _ _ _ E)|right]. destruct h as [|h]; [destruct E|]. cbn [SpecVyText.inside] in *. apply fix_stmts. apply fix_stmts in E.
    assert (Sw : swapped l l') by (exists a, x, b, y, c; now split). pose proof (Forall_swapped _ _ _ _ Sw E) as G. revert G. apply Forall_impl. intros z. apply ceasy_up.
  - destruct E as (A & B & C). split; [exact A|]. split; [exact (xeasy_up _ _ B)|]. destruct C as (C1 & C2). split; [exact (xeasy_up _ _ (negated_easy _ _ C1))|]. apply fix_all, xeasys_up, fix_all, C2.
  - destruct E as (A & B & C). split; [exact A|]. split; [exact (xeasy_up _ _ B)|]. destruct h as [|h]; [destruct C|]. cbn [SpecVyText.inside] in *. cbn [fst snd] in *. destruct C as ((C0 & C1) & C2).
    split; [split; [exact C0|exact (xeasy_up _ _ (negated_easy _ _ C1))]|]. apply fix_named. apply fix_named in C2. revert C2. apply Forall_impl. intros kv (P & Q). split; [exact P|exact (xeasy_up _ _ Q)].
  - destruct E as [E|E]; [destruct (mid_some _ _ _ _ E)|right]. destruct h as [|h]; [destruct E|]. cbn [SpecVyText.inside] in *. apply fix_stmts. apply fix_stmts in E.
    refine (mid_up _ _ _ _ _ _ _ E (fun y => ceasy_up y h) _). intros Q. right. split; [exact Q|exact Logic.I].
  - destruct E as (A & B & _). split; [exact A|]. split; [exact (xeasy_up _ _ B)|reflexivity].
Qed.

Lemma edit_shape : forall K c c', sol_edit K c c' -> shape c c'.
Proof. intros K c c' V. destruct V; cbn; auto. Qed.
Lemma edited_shape : forall K c c', edited (sol_edit K) c c' -> shape c c'.
Proof. intros K c c' D. induction D as [t t' V|c c' t t' S D IH]; [exact (edit_shape _ _ _ V)|exact (step_shape _ _ _ _ S IH)]. Qed.

Lemma edited_fitting : forall K c c' t, edited (sol_edit K) c c' -> ~ loose K t -> fitting c c' t.
Proof.
  intros K c c' t D L e e' -> ->. inversion D as [? ? V|c c' ? ? S1 D1]; subst; [right|left; exact (step_heads _ _ _ _ S1)].
  intros P A. destruct (P e') eqn:Q; [reflexivity|]. destruct (L (lo_place _ _ _ _ _ A V Q)).
Qed.

Lemma step_refl : forall c c' t t', step c c' t t' -> step c c t t.
Proof.
  intros c c' t t' S. destruct S; try solve [constructor].
  - assert (Q : with_type v (sv_type v) = v) by (destruct v; reflexivity). pose proof (st_var_type v (sv_type v)) as G. rewrite Q in G. exact G.
  - assert (Q : with_value v e = v) by (destruct v; cbn in *; subst; reflexivity). pose proof (st_var_value v e e H) as G. rewrite Q in G. exact G.
  - assert (Q : with_params f (u ++ x :: v) = f) by (destruct f; cbn in *; subst; reflexivity). pose proof (st_fun_param f u x x v H) as G. rewrite Q in G. exact G.
  - assert (Q : with_modifiers f (u ++ (m, Some (a ++ e :: b)) :: v) = f) by (destruct f; cbn in *; subst; reflexivity). pose proof (st_fun_modifier f u m a e e b v H) as G. rewrite Q in G. exact G.
  - assert (Q : with_returns f (u ++ x :: v) = f) by (destruct f; cbn in *; subst; reflexivity). pose proof (st_fun_return f u x x v H) as G. rewrite Q in G. exact G.
  - assert (Q : with_body f s = f) by (destruct f; cbn in *; subst; reflexivity). pose proof (st_fun_body f s s H) as G. rewrite Q in G. exact G.
Qed.

Definition calm (K : mutation_type) (t : thing) : Prop := forall x, inside x t -> ~ loose K x.
Lemma calm_part : forall K c c' t t', step c c' t t' -> calm K t -> calm K c.
Proof. intros K c c' t t' S C x I. apply C. exact (in_part _ _ _ (step_refl _ _ _ _ S) I). Qed.

Lemma edited_easy : forall K t t', edited (sol_edit K) t t' -> calm K t -> forall h, teasy h t -> teasy (S h) t'.
Proof.
  intros K t t' D. induction D as [t t' V|c c' t t' S D IH]; intros C h E; [exact (edit_easy _ _ _ _ V (C t (in_here t)) E)|].
  apply (step_easy c c' t t' S); [exact (edited_shape _ _ _ D)|exact (IH (calm_part _ _ _ _ _ S C))|exact (edited_fitting _ _ _ _ D (C t (in_here t)))|exact E].
Qed.

(** ** Spelling *)

Definition keeps (c c' : thing) : Prop :=
  match c, c' with
  | TE e, TE e' => spelled e = true -> spelled e' = true /\ is_type e' = is_type e /\ plain_type e' = plain_type e /\ odd_type e' = odd_type e
  | TV v, TV v' => (param_spelled v = true -> param_spelled v' = true) /\ (state_spelled v = true -> state_spelled v' = true) /\ (local_spelled v = true -> local_spelled v' = true)
  | _, _ => tspelled c = true -> tspelled c' = true
  end.

Lemma keeps_exp : forall e e', keeps (TE e) (TE e') -> exp_spelled e = true -> exp_spelled e' = true.
Proof. intros e e' K. unfold exp_spelled. rewrite !andb_true_iff. intros (A & B). destruct (K B) as (C & D & _). now rewrite D. Qed.
Lemma keeps_type : forall e e', keeps (TE e) (TE e') -> type_spelled e = true -> type_spelled e' = true /\ plain_type e' = plain_type e /\ odd_type e' = odd_type e.
Proof. intros e e' K. unfold type_spelled. rewrite !andb_true_iff. intros (A & B). destruct (K B) as (C & D & E & F). now rewrite D. Qed.

Lemma fitting_leb : forall e e' t k, fitting (TE e) (TE e') t -> asks (binds k) e t -> Nat.leb k (tightness e) = true -> Nat.leb k (tightness e') = true.
Proof. intros e e' t k F A L. apply Nat.leb_le. apply Nat.leb_le in L. exact (fitting_binds _ _ _ _ F A L). Qed.
Lemma fitting_prefix_leb : forall e e' op, fitting (TE e) (TE e') (TE (XPre op e)) -> Nat.leb 15 (tightness e) = true -> Nat.leb 15 (tightness e') = true.
Proof.
  intros e e' op F L. destruct (F e e' eq_refl eq_refl) as [(H & _)|G]; [now rewrite H|]. specialize (G _ (as_prefix _ _)). apply andb_true_iff in G. apply G.
Qed.
Lemma fitting_member_all : forall e e' x, fitting (TE e) (TE e') (TE (XMember e x)) -> Nat.leb 16 (tightness e) = true /\ negb (is_new e) = true /\ negb (is_bare e) = true ->
  Nat.leb 16 (tightness e') = true /\ negb (is_new e') = true /\ negb (is_bare e') = true.
Proof.
  intros e e' op F L. destruct (F e e' eq_refl eq_refl) as [(A & B & C & _)|G]; [now rewrite A, B, C|]. specialize (G _ (as_member _ _)). rewrite !andb_true_iff in G. unfold binds in G. tauto.
Qed.
Lemma fitting_index_all : forall e e' x, fitting (TE e) (TE e') (TE (XIndex e x)) -> Nat.leb 16 (tightness e) = true /\ negb (is_new e) = true ->
  Nat.leb 16 (tightness e') = true /\ negb (is_new e') = true.
Proof.
  intros e e' op F L. destruct (F e e' eq_refl eq_refl) as [(A & B & C & _)|G]; [now rewrite A, B|]. specialize (G _ (as_index _ _)). rewrite !andb_true_iff in G. unfold binds in G. tauto.
Qed.

Lemma cvar_many : forall l e, length l <> 1 -> stmt_spelled (CVar l e) =
  Nat.ltb 1 (length l) && existsb (fun o => match o with Some _ => true | None => false end) l && forallb (maybe local_spelled) l && match e with Some e => exp_spelled e | None => false end.
Proof. intros [|[v|] [|o l]] e N; try reflexivity. destruct (N eq_refl). Qed.
Lemma exists_mid : forall A (p : A -> bool) u x v, p x = true -> existsb p (u ++ x :: v) = true.
Proof. intros A p u x v H. rewrite existsb_app. cbn. rewrite H. now rewrite orb_true_r. Qed.

Ltac ex_fold := repeat match goal with
  | |- context [negb (is_type ?e) && spelled ?e] => change (negb (is_type e) && spelled e) with (exp_spelled e)
  | H : context [negb (is_type ?e) && spelled ?e] |- _ => change (negb (is_type e) && spelled e) with (exp_spelled e) in H
  | |- context [is_type ?e && spelled ?e] => change (is_type e && spelled e) with (type_spelled e)
  | H : context [is_type ?e && spelled ?e] |- _ => change (is_type e && spelled e) with (type_spelled e) in H
  end.

Lemma step_keeps : forall c c' t t', step c c' t t' -> shape c c' -> keeps c c' -> fitting c c' t ->
  (forall e e', t = TS (CRevert e) -> t' = TS (CRevert e') -> begins_id e = true -> begins_id e' = true) ->
  forall h, teasy h t -> keeps t t'.
Proof.
  intros c c' t t' St Sh K F Rv h E.
  destruct St; cbn [teasy xeasy] in E; try (exact (False_ind _ E)).
  all: cbn [keeps tspelled]; try (intros Sp; cbn [spelled] in Sp |- *; ex_fold; rewrite ?andb_true_iff in Sp).
  - split; [|repeat split]. rewrite !andb_true_iff. pose proof (fitting_leb _ _ _ _ F (as_left _ _ _)). pose proof (keeps_exp _ _ K). tauto.
  - split; [|repeat split]. rewrite !andb_true_iff. pose proof (fitting_leb _ _ _ _ F (as_right _ _ _)). pose proof (keeps_exp _ _ K). tauto.
  - split; [|repeat split]. rewrite !andb_true_iff. pose proof (fitting_prefix_leb _ _ _ F). pose proof (keeps_exp _ _ K). tauto.
  - split; [|repeat split]. rewrite !andb_true_iff. pose proof (fitting_leb _ _ _ _ F (as_postfix _ _)). pose proof (keeps_exp _ _ K). tauto.
  - split; [|repeat split]. rewrite !andb_true_iff. pose proof (fitting_leb _ _ _ _ F (as_condition _ _ _)). pose proof (keeps_exp _ _ K). tauto.
  - split; [|repeat split]. rewrite !andb_true_iff. pose proof (keeps_exp _ _ K). tauto.
  - split; [|repeat split]. rewrite !andb_true_iff. pose proof (keeps_exp _ _ K). tauto.
  - split; [|repeat split]. rewrite !andb_true_iff. pose proof (fitting_leb _ _ _ _ F (as_target _ _ _)). pose proof (keeps_exp _ _ K). tauto.
  - split; [|repeat split]. rewrite !andb_true_iff. pose proof (keeps_exp _ _ K). tauto.
  - split; [|repeat split]. rewrite !andb_true_iff. pose proof (fitting_leb _ _ _ _ F (as_function _ _)). pose proof (keeps_exp _ _ K). tauto.
  - split; [|repeat split]. rewrite !andb_true_iff. rewrite forallb_mid in *. ex_fold. pose proof (keeps_exp _ _ K). tauto.
  - split; [|repeat split]. rewrite !andb_true_iff. pose proof (fitting_leb _ _ _ _ F (as_named _ _)). pose proof (keeps_exp _ _ K). tauto.
  - split; [|repeat split]. rewrite !andb_true_iff. rewrite forallb_mid in *. cbn [fst snd] in *. rewrite andb_true_iff in *. ex_fold. pose proof (keeps_exp _ _ K). tauto.
  - split; [|repeat split]. rewrite !andb_true_iff. pose proof (fitting_leb _ _ _ _ F (as_options _ _)). pose proof (keeps_exp _ _ K). tauto.
  - split; [|repeat split]. rewrite !andb_true_iff. rewrite some_mid in *. rewrite forallb_mid in *. cbn [fst snd] in *. rewrite andb_true_iff in *. ex_fold. pose proof (keeps_exp _ _ K). tauto.
  - split; [|repeat split]. rewrite !andb_true_iff. pose proof (fitting_member_all _ _ _ F). pose proof (keeps_exp _ _ K). tauto.
  - split; [|repeat split]. rewrite !andb_true_iff. pose proof (fitting_index_all _ _ _ F). pose proof (keeps_exp _ _ K). tauto.
  - split; [|repeat split]. rewrite !andb_true_iff. pose proof (keeps_exp _ _ K). tauto.
  - split; [|repeat split]. rewrite !andb_true_iff. rewrite forallb_mid in *. ex_fold. pose proof (keeps_exp _ _ K). split; [|tauto]. destruct u as [|[o|] [|o' u]]; reflexivity.
  - split; [|repeat split]. destruct Sp as (A & B). destruct (keeps_type _ _ K B) as (B' & P & _). rewrite P, A, B'. reflexivity.
  - split; [|repeat split]. rewrite !andb_true_iff. pose proof (fun Q => proj1 (keeps_type _ _ K Q)). tauto.
  - split; [|repeat split]. rewrite !andb_true_iff. pose proof (fun Q => proj1 (keeps_type _ _ K Q)). tauto.
  - pose proof (keeps_type _ _ K (proj1 Sp)) as (A & B & _). split; [|repeat split; exact B]. rewrite A. apply Sp.
  - split; [|repeat split]. rewrite !andb_true_iff. pose proof (keeps_exp _ _ K). tauto.
  - (* variables *) unfold local_spelled, state_spelled, param_spelled, var_spelled. cbn. rewrite !andb_true_iff.
    split; [|split]; intros Q; assert (T : type_spelled (sv_type v) = true) by tauto; destruct (keeps_type _ _ K T) as (B' & _ & O); rewrite ?O; tauto.
  - unfold local_spelled, state_spelled, param_spelled, var_spelled. cbn. rewrite !andb_true_iff. rewrite H. cbn [maybe]. pose proof (keeps_exp _ _ K). intuition discriminate.
  - (* statements *) exact (keeps_exp _ _ K Sp).
  - destruct K as (_ & _ & K). destruct (Nat.eq_dec (length (u ++ Some x :: v)) 1) as [N|N].
    + rewrite app_length in N. cbn in N. destruct u as [|o u]; [|cbn in N; lia]. destruct v as [|o v]; [|cbn in N; lia]. cbn in Sp |- *. rewrite andb_true_iff in *. tauto.
    + assert (N' : length (u ++ Some x' :: v) <> 1) by (rewrite app_length in *; exact N). rewrite (cvar_many _ e N) in Sp. rewrite (cvar_many _ e N').
      rewrite !andb_true_iff, forallb_mid in *. rewrite (exists_mid _ _ u (Some x') v eq_refl). rewrite !app_length in *. cbn [maybe length] in *. tauto.
  - pose proof (keeps_exp _ _ K) as K'. destruct (Nat.eq_dec (length l) 1) as [N|N].
    + destruct l as [|[x|] [|o l]]; try discriminate N; cbn in Sp |- *; [|discriminate Sp]. rewrite andb_true_iff in *. tauto.
    + rewrite (cvar_many _ (Some e) N) in Sp. rewrite (cvar_many _ (Some e') N). rewrite !andb_true_iff in *. tauto.
  - cbn [stmt_spelled] in *. rewrite forallb_mid in *. cbn [keeps tspelled] in K. tauto.
  - cbn [stmt_spelled] in *. rewrite !andb_true_iff in *. pose proof (keeps_exp _ _ K). tauto.
  - cbn [stmt_spelled] in *. cbn [keeps tspelled] in K. destruct Sh as (S1 & S2 & S3). destruct b as [b|]; rewrite !andb_true_iff in *; [|tauto]. rewrite S1. destruct Sp as ((A & B) & C & D). repeat split; auto.
    destruct (is_cblock a); [reflexivity|]. cbn in *. apply negb_true_iff. apply negb_true_iff in C. auto.
  - cbn [stmt_spelled] in *. cbn [keeps tspelled] in K. rewrite !andb_true_iff in *. tauto.
  - cbn [stmt_spelled] in *. rewrite !andb_true_iff in *. pose proof (keeps_exp _ _ K). tauto.
  - cbn [stmt_spelled] in *. cbn [keeps tspelled] in K. rewrite !andb_true_iff in *. tauto.
  - cbn [stmt_spelled] in *. rewrite !andb_true_iff in *. pose proof (keeps_exp _ _ K). tauto.
  - cbn [stmt_spelled] in *. cbn [keeps tspelled] in K. rewrite !andb_true_iff in *. tauto.
  - cbn [stmt_spelled] in *. cbn [keeps tspelled] in K. destruct Sh as (S1 & S2 & S3). rewrite !andb_true_iff in *. rewrite S2. tauto.
  - cbn [stmt_spelled maybe] in *. rewrite !andb_true_iff in *. pose proof (keeps_exp _ _ K). tauto.
  - cbn [stmt_spelled maybe] in *. rewrite !andb_true_iff in *. pose proof (keeps_exp _ _ K). tauto.
  - cbn [stmt_spelled] in *. cbn [keeps tspelled] in K. rewrite !andb_true_iff in *. tauto.
  - exact (keeps_exp _ _ K Sp).
  - exact (keeps_exp _ _ K Sp).
  - cbn [stmt_spelled] in *. rewrite !andb_true_iff in *. pose proof (keeps_exp _ _ K). pose proof (Rv _ _ eq_refl eq_refl). tauto.
  - (* members *) exact (proj1 (proj2 K) Sp).
  - cbn [member_spelled] in *. unfold fun_spelled in *. cbn. rewrite H in Sp. rewrite !andb_true_iff, forallb_mid in *. destruct K as (K & _). tauto.
  - cbn [member_spelled] in *. unfold fun_spelled in *. cbn. rewrite H in Sp. rewrite !andb_true_iff, forallb_mid in *. unfold call_spelled in *. cbn [fst snd maybe] in *. rewrite andb_true_iff, forallb_mid in *. pose proof (keeps_exp _ _ K). tauto.
  - cbn [member_spelled] in *. unfold fun_spelled in *. cbn. rewrite H in Sp. rewrite !andb_true_iff, forallb_mid in *. destruct K as (K & _). tauto.
  - cbn [member_spelled] in *. unfold fun_spelled in *. cbn. rewrite H in Sp. unfold body_spelled in *. cbn [maybe] in *. rewrite !andb_true_iff in *. cbn [keeps tspelled] in K. destruct Sh as (S1 & _). rewrite S1. tauto.
  - cbn [member_spelled] in *. rewrite !andb_true_iff, forallb_mid in *. destruct K as (K & _). tauto.
  - cbn [member_spelled] in *. unfold body_spelled in *. cbn [maybe] in *. rewrite !andb_true_iff in *. cbn [keeps tspelled] in K. destruct Sh as (S1 & _). rewrite S1. tauto.
  - cbn [member_spelled] in *. rewrite !andb_true_iff, forallb_mid in *. destruct K as (K & _). tauto.
  - cbn [member_spelled] in *. rewrite !andb_true_iff, forallb_mid in *. destruct K as (K & _). tauto.
  - cbn [member_spelled] in *. rewrite !andb_true_iff, forallb_mid in *. destruct K as (K & _). tauto.
  - cbn [member_spelled maybe] in *. rewrite !andb_true_iff in *. pose proof (fun Q => proj1 (keeps_type _ _ K Q)). tauto.
  - cbn [member_spelled maybe] in *. rewrite !andb_true_iff in *. pose proof (fun Q => proj1 (keeps_type _ _ K Q)). tauto.
  - cbn [top_spelled] in *. rewrite !andb_true_iff, forallb_mid in *. unfold call_spelled in *. cbn [fst snd maybe] in *. rewrite andb_true_iff, forallb_mid in *. pose proof (keeps_exp _ _ K). tauto.
  - cbn [top_spelled] in *. rewrite !andb_true_iff, !forallb_mid in *. cbn [keeps tspelled] in K. tauto.
  - exact (K Sp).
  - rewrite forallb_mid in *. cbn [keeps tspelled] in K. tauto.
Qed.

Lemma forallb_swapped : forall A (p : A -> bool) l l', swapped l l' -> forallb p l = true -> forallb p l' = true.
Proof. intros A p l l' S. rewrite !forallb_forall. rewrite <- !Forall_forall. now apply Forall_swapped. Qed.
Lemma forallb_without : forall A (p : A -> bool) a x b, forallb p (a ++ x :: b) = true -> forallb p (a ++ b) = true.
Proof. intros A p a x b. rewrite forallb_mid, forallb_app, andb_true_iff. tauto. Qed.
Lemma swapped_spelled : forall l l', map fst l' = map fst l -> swapped (map snd l) (map snd l') ->
  forallb (fun kv => name (fst kv) && exp_spelled (snd kv)) l = true -> forallb (fun kv => name (fst kv) && exp_spelled (snd kv)) l' = true.
Proof.
  intros l l' E S F. rewrite forallb_forall in *. setoid_rewrite andb_true_iff. setoid_rewrite andb_true_iff in F. rewrite <- Forall_forall in *.
  exact (swapped_values (fun e => exp_spelled e = true) (fun k => name k = true) l l' E S F).
Qed.
Lemma operators_binary : forall t op, In op (operators t) -> smem op binary_ops = true.
Proof. intros t op I. destruct t as [g|g]; [destruct g|]; cbn in I; repeat (destruct I as [<-|I]; [reflexivity|]); destruct I. Qed.
Lemma negated_spelled : forall e, exp_spelled e = true -> exp_spelled (negated e) = true.
Proof. intros e E. unfold exp_spelled in *. cbn. now rewrite E. Qed.

Lemma edit_keeps : forall K c c', sol_edit K c c' -> K <> Generic Assignment -> K <> Generic Integer -> ~ loose K c -> keeps c c'.
Proof.
  intros K c c' V NA NI L. pose proof V as V0. destruct V; try (destruct (NA eq_refl)); try (destruct (NI eq_refl)); cbn [keeps tspelled]; intros Sp; cbn [spelled] in Sp |- *; ex_fold; rewrite ?andb_true_iff in Sp.
  - split; [|repeat split]. pose proof (not_loose_operand _ _ _ _ _ V0 L (as_left _ _ _)) as A1. pose proof (not_loose_operand _ _ _ _ _ V0 L (as_right _ _ _)) as A2. unfold binds in *.
    rewrite !andb_true_iff. pose proof (operators_binary _ _ H0). tauto.
  - split; [|repeat split]. pose proof (not_loose_operand _ _ _ _ _ V0 L (as_left _ _ _)) as A1. pose proof (not_loose_operand _ _ _ _ _ V0 L (as_right _ _ _)) as A2. unfold binds in *.
    rewrite !andb_true_iff. tauto.
  - split; [|repeat split]. rewrite !andb_true_iff. split; [|tauto]. split; [|tauto]. cbn in H0. repeat (destruct H0 as [<-|H0]; [reflexivity|]). destruct H0.
  - split; [|repeat split]. rewrite !andb_true_iff. split; [|tauto]. split; [|tauto]. cbn in H0. repeat (destruct H0 as [<-|H0]; [reflexivity|]). destruct H0.
  - cbn [stmt_spelled] in *. exact (forallb_without _ _ _ _ _ Sp).
  - destruct Sp as (_ & Sp). rewrite forallb_forall in Sp. specialize (Sp _ H). apply andb_true_iff in Sp. destruct Sp as (A & B). apply negb_true_iff in A. destruct e; try discriminate A; repeat split; exact B.
  - destruct Sp as (_ & Sp). rewrite forallb_forall in Sp. apply in_map_iff in H. destruct H as (kv & <- & H). specialize (Sp _ H). rewrite !andb_true_iff in Sp. destruct Sp as (_ & A & B). apply negb_true_iff in A. destruct (snd kv); try discriminate A; repeat split; exact B.
  - split; [|repeat split]. rewrite !andb_true_iff. split; [tauto|]. apply (forallb_swapped _ _ _ _ H). tauto.
  - split; [|repeat split]. rewrite !andb_true_iff. split; [tauto|]. apply (swapped_spelled _ _ H H0). apply Sp.
  - cbn [stmt_spelled] in *. rewrite !andb_true_iff in *. destruct b; cbn; tauto.
  - cbn [stmt_spelled] in *. rewrite !andb_true_iff in *. pose proof (negated_spelled e). tauto.
  - cbn [stmt_spelled] in *. assert (Sw : swapped l l') by (exists a, x, b, y, c; now split). exact (forallb_swapped _ _ _ _ Sw Sp).
  - split; [|repeat split]. cbn [forallb] in *. ex_fold. rewrite !andb_true_iff in *. pose proof (negated_spelled e). tauto.
  - split; [|repeat split]. cbn [forallb fst snd] in *. ex_fold. rewrite !andb_true_iff in *. pose proof (negated_spelled e). tauto.
  - cbn [stmt_spelled] in *. rewrite forallb_mid in *. cbn. rewrite andb_true_r. exact Sp.
  - split; [|repeat split]. rewrite !andb_true_iff. split; [tauto|reflexivity].
Qed.

Lemma begins_trans : forall a b e, begins a b -> begins b e -> begins a e.
Proof. intros a b e A B. induction B; [exact A| | |]; constructor; assumption. Qed.
Lemma begins_kept : forall K a a' e, edited (sol_edit K) (TE a) (TE a') -> begins a e -> ~ loose K (TS (CRevert e)) -> begins_id a = true -> begins_id a' = true.
Proof.
  intros K a a' e D. remember (TE a) as t eqn:Q. remember (TE a') as t' eqn:Q'. revert a a' Q Q'. induction D as [t t' V|c c' t t' S D IH]; intros a a' -> -> B L H.
  - destruct (begins_id a') eqn:G; [reflexivity|]. destruct (L (lo_revert _ _ _ _ B V G)).
  - inversion S; subst; try discriminate H; cbn [begins_id] in *; try exact H; (eapply IH; [reflexivity|reflexivity| |exact L|exact H]); (eapply begins_trans; [|exact B]); constructor; constructor.
Qed.

Lemma body_of : forall h s, body_easy h s -> exists k, ceasy k s.
Proof. intros h s. unfold body_easy. destruct (is_cblock s); [now exists h|]. destruct h as [|h]; [intros []|]. now exists h. Qed.

Lemma part_easy : forall c c' t t', step c c' t t' -> forall h, teasy h t -> exists k, teasy k c.
Proof.
  intros c c' t t' St h E. destruct St; cbn [teasy xeasy ceasy easy_member easy_top_level] in E |- *; try (exact (False_ind _ E)); try (exists h; (exact E || apply E); fail).
  - destruct E as (_ & _ & E). exists h. apply fix_all in E. exact (mid_of _ _ _ _ _ E).
  - destruct E as (_ & _ & E). destruct h as [|h]; [destruct E|]. exists h. apply fix_named, mid_of in E. apply E.
  - destruct E as (_ & _ & _ & E). exists h. apply fix_named, mid_of in E. apply E.
  - destruct E as (_ & E). exists h. apply fix_maybe in E. exact (mid_of _ _ _ _ _ E).
  - exists h. destruct E as (_ & _ & _ & _ & _ & _ & E). rewrite H in E. exact E.
  - exists h. exact (mid_of _ _ _ _ _ (proj1 E)).
  - destruct E as [E|E]; [destruct (mid_some _ _ _ _ E)|]. destruct h as [|h]; [destruct E|]. exists h. apply fix_stmts in E. exact (mid_of _ _ _ _ _ E).
  - exact (body_of h a (proj1 (proj2 E))).
  - exact (body_of h b (proj2 (proj2 (proj2 E)))).
  - exact (body_of h s (proj2 (proj2 (proj2 E)))).
  - destruct E as (_ & _ & E & _). rewrite H in E. exists h. exact (mid_of _ _ _ _ _ E).
  - destruct E as (_ & _ & _ & _ & _ & _ & _ & _ & E & _). rewrite H in E. apply mid_of in E. exists h. exact (mid_of _ _ _ _ _ (proj2 E)).
  - destruct E as (_ & _ & _ & _ & _ & _ & _ & _ & _ & E & _). rewrite H in E. exists h. exact (mid_of _ _ _ _ _ E).
  - destruct E as (_ & _ & _ & _ & _ & _ & _ & _ & _ & _ & E). rewrite H in E. exists h. exact E.
  - exists h. exact (mid_of _ _ _ _ _ (proj1 (proj2 E))).
  - exists h. exact (mid_of _ _ _ _ _ (proj2 E)).
  - exists h. exact (mid_of _ _ _ _ _ (proj2 E)).
  - destruct E as (_ & E). destruct h as [|h]; [destruct E|]. exists h. exact (mid_of _ _ _ _ _ E).
  - destruct E as (_ & _ & E & _). apply mid_of in E. exists h. exact (mid_of _ _ _ _ _ (proj2 E)).
  - destruct E as (_ & _ & _ & [E|E]); [destruct (mid_some _ _ _ _ E)|]. destruct h as [|h]; [destruct E|]. exists h. exact (mid_of _ _ _ _ _ E).
  - exists h. destruct m; try exact E. destruct E.
  - exists h. exact (mid_of _ _ _ _ _ E).
Qed.

Lemma edited_keeps : forall K t t', edited (sol_edit K) t t' -> K <> Generic Assignment -> K <> Generic Integer -> calm K t -> (exists h, teasy h t) -> keeps t t'.
Proof.
  intros K t t' D NA NI. induction D as [t t' V|c c' t t' S D IH]; intros C (h & E); [exact (edit_keeps _ _ _ V NA NI (C t (in_here t)))|].
  destruct (part_easy _ _ _ _ S h E) as (k & Ek).
  refine (step_keeps c c' t t' S (edited_shape _ _ _ D) (IH (calm_part _ _ _ _ _ S C) (ex_intro _ k Ek)) (edited_fitting _ _ _ _ D (C t (in_here t))) _ h E).
  intros e e' -> ->. inversion S; subst. exact (begins_kept K e e' e D (be_here e) (C _ (in_here _))).
Qed.

(** ** Braces *)

Lemma brace_shape : forall c c', brace c c' -> shape c c'.
Proof.
  intros c c' B. destruct B; try (destruct H as (A & ->)); cbn [shape]; try (repeat split; cbn; auto; discriminate); try reflexivity.
Qed.
Lemma braced_shape : forall c c', edited brace c c' -> shape c c'.
Proof. intros c c' D. induction D as [t t' V|c c' t t' S D IH]; [exact (brace_shape _ _ V)|exact (step_shape _ _ _ _ S IH)]. Qed.
Lemma braced_no_exp : forall c c', edited brace c c' -> (forall e, c <> TE e) /\ (forall v, c <> TV v).
Proof.
  intros c c' D. induction D as [t t' V|c c' t t' S D IH]; [destruct V; split; discriminate|].
  split; intros x ->; inversion S; subst; first [exact (proj1 IH _ eq_refl)|exact (proj2 IH _ eq_refl)].
Qed.
Lemma braced_fitting : forall c c' t, edited brace c c' -> fitting c c' t.
Proof. intros c c' t D e e' -> _. destruct (proj1 (braced_no_exp _ _ D) e eq_refl). Qed.

Lemma block_one : forall h s, ceasy h s -> ceasy (S h) (CBlock false [s]).
Proof. intros h s E. right. split; [exact E|exact Logic.I]. Qed.
Lemma body_block : forall h s s', in_braces s s' -> body_easy h s -> body_easy (S h) s'.
Proof.
  intros h s s' (A & ->) E. unfold body_easy in *. rewrite A in E. destruct h as [|h]; [destruct E|]. apply block_one. exact (ceasy_up _ _ E).
Qed.

Lemma brace_easy : forall c c' h, brace c c' -> tspelled c = true -> teasy h c -> teasy (S h) c'.
Proof.
  intros c c' h B Sp E. destruct B; cbn [teasy ceasy] in E |- *.
  - destruct E as (A & G & C & D). split; [exact (xeasy_up _ _ A)|]. split; [exact (body_block _ _ _ H G)|]. split; [left; now destruct H as (_ & ->)|]. destruct o as [o|]; [exact (body_up o h (ceasy_up o) D)|exact Logic.I].
  - destruct E as (A & G & C & D). split; [exact (xeasy_up _ _ A)|]. split; [exact (body_up a h (ceasy_up a) G)|]. split; [intuition discriminate|]. exact (body_block _ _ _ H D).
  - destruct E as (A & G). split; [exact (xeasy_up _ _ A)|]. destruct H as (_ & ->). exact (block_one _ _ G).
  - destruct E as (A & G). split; [exact (xeasy_up _ _ A)|]. destruct H as (_ & ->). exact (block_one _ _ G).
  - destruct E as (A & G & C & D). split; [destruct i as [i|]; [exact (ceasy_up _ _ A)|exact A]|]. split; [destruct e as [e|]; [exact (xeasy_up _ _ G)|exact G]|]. split; [exact (xmaybe_up _ _ C)|exact (body_block _ _ _ H D)].
  - exfalso. cbn in Sp. unfold fun_spelled, body_spelled in Sp. rewrite H in Sp. cbn in Sp. destruct H0 as (A & _). rewrite A in Sp. rewrite !andb_false_r in Sp. discriminate Sp.
  - exfalso. cbn in Sp. unfold body_spelled in Sp. cbn in Sp. destruct H as (A & _). rewrite A in Sp. rewrite !andb_false_r in Sp. discriminate Sp.
Qed.
Lemma brace_keeps : forall c c', brace c c' -> keeps c c'.
Proof.
  intros c c' B. destruct B; cbn [keeps tspelled stmt_spelled]; intros Sp; rewrite ?andb_true_iff in *.
  - destruct H as (A & ->). cbn. rewrite andb_true_r. destruct o as [o|]; rewrite ?andb_true_iff in *; tauto.
  - destruct H as (A & ->). cbn. rewrite andb_true_r. tauto.
  - destruct H as (A & ->). cbn. rewrite andb_true_r. tauto.
  - destruct H as (A & ->). cbn. rewrite andb_true_r. tauto.
  - destruct H as (A & ->). cbn. rewrite andb_true_r. tauto.
  - exfalso. cbn in Sp. unfold fun_spelled, body_spelled in Sp. rewrite H in Sp. cbn in Sp. destruct H0 as (A & _). rewrite A in Sp. rewrite !andb_false_r in Sp. discriminate Sp.
  - exfalso. cbn in Sp. unfold body_spelled in Sp. cbn in Sp. destruct H as (A & _). rewrite A in Sp. rewrite !andb_false_r in Sp. discriminate Sp.
Qed.

(** *** A part of what is spelled is spelled *)

Lemma var_parts : forall v, param_spelled v = true \/ state_spelled v = true \/ local_spelled v = true -> tspelled (TV v) = true.
Proof.
  intros v. unfold local_spelled, state_spelled, param_spelled, var_spelled. cbn [tspelled]. rewrite !andb_true_iff. intros [H|[H|H]]; (split; [tauto|]); try (destruct (sv_value v); [intuition discriminate|reflexivity]).
Qed.
Lemma exp_part : forall e, exp_spelled e = true -> spelled e = true.
Proof. intros e. unfold exp_spelled. rewrite andb_true_iff. tauto. Qed.
Lemma type_part : forall e, type_spelled e = true -> spelled e = true.
Proof. intros e. unfold type_spelled. rewrite andb_true_iff. tauto. Qed.
Lemma cvar_parts : forall l e, stmt_spelled (CVar l e) = true -> forallb (maybe local_spelled) l = true /\ maybe exp_spelled e = true.
Proof.
  intros l e Sp. destruct (Nat.eq_dec (length l) 1) as [N|N].
  - destruct l as [|[v|] [|o l]]; try discriminate N; [|discriminate Sp]. cbn [stmt_spelled forallb maybe] in *. rewrite !andb_true_iff in *. tauto.
  - rewrite (cvar_many _ e N) in Sp. rewrite !andb_true_iff in Sp. split; [tauto|]. destruct e; [cbn; tauto|reflexivity].
Qed.
Lemma part_spelled : forall c c' t t', step c c' t t' -> tspelled t' = true -> tspelled c' = true.
Proof.
  intros c c' t t' St Sp. pose proof Sp as Sp0. destruct St; cbn [tspelled spelled stmt_spelled member_spelled top_spelled maybe] in Sp |- *; ex_fold;
    unfold fun_spelled, body_spelled, call_spelled in Sp; cbn in Sp; ex_fold;
    repeat (rewrite ?andb_true_iff, ?forallb_mid in Sp); cbn [fst snd maybe] in Sp; repeat (rewrite ?andb_true_iff, ?forallb_mid in Sp); ex_fold; 
    try (clear Sp0; tauto); try (apply exp_part; clear Sp0; tauto); try (apply type_part; clear Sp0; tauto); try (apply var_parts; clear Sp0; tauto).
  - apply var_parts. destruct (cvar_parts _ _ Sp0) as (A & _). rewrite forallb_mid in A. cbn [maybe] in A. tauto.
  - apply exp_part. exact (proj2 (cvar_parts _ _ Sp0)).
Qed.

Lemma braced_easy : forall c c', edited brace c c' -> forall h, tspelled c = true -> teasy h c -> teasy (S h) c'.
Proof.
  intros c c' D. induction D as [t t' V|c c' t t' S D IH]; intros h Sp E; [exact (brace_easy _ _ _ V Sp E)|].
  apply (step_easy c c' t t' S); [exact (braced_shape _ _ D)| |exact (braced_fitting _ _ _ D)|exact E].
  intros k Ek. apply IH; [|exact Ek]. exact (part_spelled _ _ _ _ (step_refl _ _ _ _ S) Sp).
Qed.
Lemma braced_keeps : forall c c', edited brace c c' -> (exists h, teasy h c) -> keeps c c'.
Proof.
  intros c c' D. induction D as [t t' V|c c' t t' S D IH]; intros (h & E); [exact (brace_keeps _ _ V)|].
  refine (step_keeps c c' t t' S (braced_shape _ _ D) (IH (part_easy _ _ _ _ S h E)) (braced_fitting _ _ _ D) _ h E).
  intros e e' -> ->. inversion S; subst. destruct (proj1 (braced_no_exp _ _ D) e eq_refl).
Qed.

(** ** Whole programs *)

Definition made_up (t : mutation_type) : Prop := t = Generic Assignment \/ t = Generic Integer.

Lemma one_edit_easy : forall t l l' h, one_edit t l l' -> tight t l -> Forall (easy_top_level h) l -> Forall (easy_top_level (S h)) l'.
Proof. intros t l l' h D T E. exact (edited_easy t (TU l) (TU l') D T h E). Qed.
Lemma one_edit_spelled : forall t l l' h, one_edit t l l' -> tight t l -> Forall (easy_top_level h) l -> forallb top_spelled l = true ->
  (made_up t -> forallb top_spelled l' = true) -> forallb top_spelled l' = true.
Proof.
  intros t l l' h D T E S M. assert (Q : made_up t \/ (t <> Generic Assignment /\ t <> Generic Integer)).
  { unfold made_up. destruct t as [g|g]; [destruct g|right; split; discriminate]; try (left; auto; fail); right; split; discriminate. }
  destruct Q as [Q|(A & B)]; [exact (M Q)|]. exact (edited_keeps t (TU l) (TU l') D A B T (ex_intro _ h E) S).
Qed.
Lemma braces_easy : forall l l' h, same_but_braces l l' -> forallb top_spelled l = true -> Forall (easy_top_level h) l -> Forall (easy_top_level (S h)) l'.
Proof. intros l l' h [->|D] Sp E; [exact (teasy_up (TU l) h E)|exact (braced_easy (TU l) (TU l') D h Sp E)]. Qed.
Lemma braces_spelled : forall l l' h, same_but_braces l l' -> forallb top_spelled l = true -> Forall (easy_top_level h) l -> forallb top_spelled l' = true.
Proof. intros l l' h [->|D] Sp E; [exact Sp|exact (braced_keeps (TU l) (TU l') D (ex_intro _ h E) Sp)]. Qed.

(** ** A loose part does some harm *)

Definition same_sort (c c' : thing) : Prop :=
  match c, c' with TE _, TE _ | TV _, TV _ | TS _, TS _ | TM _, TM _ | TP _, TP _ | TU _, TU _ => True | _, _ => False end.

Lemma step_other : forall c t t1, step c c t t1 -> forall c', same_sort c c' -> exists t', step c c' t t' /\ same_sort t t'.
Proof.
  intros c t t1 S c' Q. inversion S; subst; destruct c' as [e2|v2|s2|m2|p2|l2]; try destruct Q;
    (eexists; split; [solve [econstructor|econstructor; eassumption]|exact Logic.I]).
Qed.
Lemma step_back : forall c c' t t', step c c' t t' -> step c' c t' t.
Proof.
  intros c c' t t' S. destruct S; try solve [constructor].
  - assert (Q : with_type (with_type v t') (sv_type v) = v) by (destruct v; reflexivity). pose proof (st_var_type (with_type v t') (sv_type v)) as G. rewrite Q in G. exact G.
  - assert (Q : with_value (with_value v e') e = v) by (destruct v; cbn in *; subst; reflexivity). pose proof (st_var_value (with_value v e') e' e eq_refl) as G. rewrite Q in G. exact G.
  - assert (Q : with_params (with_params f (u ++ x' :: v)) (u ++ x :: v) = f) by (destruct f; cbn in *; subst; reflexivity). pose proof (st_fun_param (with_params f (u ++ x' :: v)) u x' x v eq_refl) as G. rewrite Q in G. exact G.
  - set (f' := with_modifiers f (u ++ (m, Some (a ++ e' :: b)) :: v)). assert (Q : with_modifiers f' (u ++ (m, Some (a ++ e :: b)) :: v) = f) by (destruct f; cbn in *; subst; reflexivity).
    pose proof (st_fun_modifier f' u m a e' e b v eq_refl) as G. rewrite Q in G. exact G.
  - assert (Q : with_returns (with_returns f (u ++ x' :: v)) (u ++ x :: v) = f) by (destruct f; cbn in *; subst; reflexivity). pose proof (st_fun_return (with_returns f (u ++ x' :: v)) u x' x v eq_refl) as G. rewrite Q in G. exact G.
  - assert (Q : with_body (with_body f s') s = f) by (destruct f; cbn in *; subst; reflexivity). pose proof (st_fun_body (with_body f s') s' s eq_refl) as G. rewrite Q in G. exact G.
Qed.

Lemma inside_edited : forall (R : thing -> thing -> Prop) x t, inside x t -> forall x', edited R x x' -> same_sort x x' ->
  exists t', edited R t t' /\ same_sort t t' /\ (forall h, teasy h t' -> exists k, teasy k x') /\ (tspelled t' = true -> tspelled x' = true).
Proof.
  intros R x t I. induction I as [|c t S I IH]; intros x' E Q.
  - exists x'. split; [exact E|]. split; [exact Q|]. split; [intros h Eh; now exists h|auto].
  - destruct (IH x' E Q) as (c' & E1 & Q1 & A & B). destruct (step_other _ _ _ S c' Q1) as (t' & S' & Q').
    exists t'. split; [exact (ed_inside _ _ _ _ _ S' E1)|]. split; [exact Q'|]. split.
    + intros h Eh. destruct (part_easy _ _ _ _ (step_back _ _ _ _ S') h Eh) as (k & Ek). exact (A k Ek).
    + intros Sp. exact (B (part_spelled _ _ _ _ S' Sp)).
Qed.

Lemma asks_other : forall P e x e', asks P e x -> exists x', step (TE e) (TE e') x x' /\ asks P e' x' /\ same_sort x x'.
Proof. intros P e x e' A. destruct A; eexists; (split; [constructor|split; [constructor|exact Logic.I]]). Qed.
Lemma asks_fits : forall P e x h, asks P e x -> teasy h x -> tspelled x = true -> P e = true.
Proof.
  intros P e x h A E Sp. destruct A; cbn [teasy xeasy tspelled spelled] in E, Sp; unfold binds; rewrite !andb_true_iff in *; try tauto. rewrite negb_true_iff. tauto.
Qed.

Lemma begins_edited : forall (R : thing -> thing -> Prop) a e, begins a e -> forall a', edited R (TE a) (TE a') -> exists e', edited R (TE e) (TE e') /\ begins_id e' = begins_id a'.
Proof.
  intros R a e B. induction B as [|e x B IH|e args B IH|e args B IH]; intros a' D; [exists a'; now split| | |]; destruct (IH a' D) as (e' & D' & Q).
  - exists (XMember e' x). split; [exact (ed_inside _ _ _ _ _ (st_member _ _ _) D')|exact Q].
  - exists (XCall e' args). split; [exact (ed_inside _ _ _ _ _ (st_call _ _ _) D')|exact Q].
  - exists (XNamed e' args). split; [exact (ed_inside _ _ _ _ _ (st_named _ _ _) D')|exact Q].
Qed.

Lemma loose_harm : forall K x, loose K x -> exists x', edited (sol_edit K) x x' /\ same_sort x x' /\ ((exists k, teasy k x') -> tspelled x' = true -> False).
Proof.
  intros K x L. destruct L as [P e e' x A V N|P e x x' V A N|a a' e B V N].
  - destruct (asks_other _ _ _ e' A) as (x' & S & A2 & So). exists x'. split; [exact (ed_inside _ _ _ _ _ S (ed_here _ _ _ V))|]. split; [exact So|].
    intros (k & Ek) Sp. pose proof (asks_fits _ _ _ _ A2 Ek Sp). congruence.
  - exists (TE x'). split; [exact (ed_here _ _ _ V)|]. split; [exact Logic.I|]. intros (k & Ek) Sp. pose proof (asks_fits _ _ _ _ A Ek Sp). congruence.
  - destruct (begins_edited _ _ _ B a' (ed_here _ _ _ V)) as (e' & D & Q). exists (TS (CRevert e')). split; [exact (ed_inside _ _ _ _ _ (st_revert _ _) D)|]. split; [exact Logic.I|].
    intros _ Sp. cbn in Sp. rewrite Q, N in Sp. discriminate Sp.
Qed.

Lemma tight_exact : forall t l h, Forall (easy_top_level h) l -> forallb top_spelled l = true -> t <> Generic Assignment -> t <> Generic Integer ->
  (tight t l <-> forall l', one_edit t l l' -> Forall (easy_top_level (S h)) l' /\ forallb top_spelled l' = true).
Proof.
  intros t l h E S NA NI. split.
  - intros T l' D. split; [exact (one_edit_easy t l l' h D T E)|]. apply (one_edit_spelled t l l' h D T E S). intros [Q|Q]; contradiction.
  - intros H x I L. destruct (loose_harm t x L) as (x' & D & So & X).
    destruct (inside_edited _ x (TU l) I x' D So) as (t' & D' & So' & A & B). destruct t' as [e|v|s|m|p|l']; try destruct So'.
    destruct (H l' D') as (E' & S'). exact (X (A _ E') (B S')).
Qed.

