(** An edit of a Solidity program changes it unless there is an idle part. *)
From Coq Require Import String Ascii List NArith ZArith Bool Lia.
From Verif Require Import Base Json MutationType SpecLiteral SpecVyText SpecSolText SpecSolEdit SpecSolIdle.
Import ListNotations.
Open Scope string_scope.
Open Scope list_scope.

Lemma mid_same : forall A (u v : list A) x y, u ++ x :: v = u ++ y :: v -> x = y.
Proof. intros A u v x y E. apply app_inv_head in E. now injection E. Qed.

Lemma step_same : forall c c' t t', step c c' t t' -> t = t' -> c = c'.
Proof.
  intros c c' t t' S. destruct S; intros E; try (injection E; intros; subst; reflexivity).
  all: try (injection E as E; apply mid_same in E; congruence).
  - injection E as E. apply (f_equal sv_type) in E. cbn in E. congruence.
  - injection E as E. apply (f_equal sv_value) in E. cbn in E. congruence.
  - injection E as E. apply (f_equal sf_params) in E. cbn in E. rewrite H in E. apply mid_same in E. congruence.
  - injection E as E. apply (f_equal sf_modifiers) in E. cbn in E. rewrite H in E. apply mid_same in E. injection E as E. apply mid_same in E. congruence.
  - injection E as E. apply (f_equal sf_returns) in E. cbn in E. rewrite H in E. apply mid_same in E. congruence.
  - injection E as E. apply (f_equal sf_body) in E. cbn in E. congruence.
  - injection E as E. apply mid_same in E. injection E as E. apply mid_same in E. congruence.
Qed.

Lemma edited_same : forall R t t', edited R t t' -> t = t' -> exists x, inside x t /\ R x x.
Proof.
  intros R t t' E. induction E as [t t' H|c c' t t' S E IH]; intros Q.
  - subst t'. exists t. split; [apply in_here|exact H].
  - pose proof (step_same _ _ _ _ S Q) as Qc. destruct (IH Qc) as (x & I & H). exists x. split; [|exact H]. subst c' t'. exact (in_part _ _ _ S I).
Qed.

(** How deep calls, tuples and prefix operators are nested. *)
Fixpoint nest (e : sexp) : nat :=
  match e with
  | XPre _ a => Datatypes.S (nest a)
  | XTuple l => Datatypes.S (list_max (map (fun o => match o with Some e => nest e | None => 0 end) l))
  | XCall _ l => Datatypes.S (list_max (map nest l))
  | XNamed _ l => Datatypes.S (list_max (map (fun p => nest (snd p)) l))
  | _ => 0
  end.
Lemma max_in : forall l x, In x l -> x <= list_max l.
Proof. induction l as [|y l IH]; intros x I; [destruct I|]. cbn. destruct I as [<-|I]; [lia|]. specialize (IH x I). unfold list_max in IH. lia. Qed.

Lemma swap_same : forall A (a b c : list A) x y, a ++ x :: b ++ y :: c = a ++ y :: b ++ x :: c -> x = y.
Proof. intros A a b c x y E. apply app_inv_head in E. now injection E. Qed.
Lemma not_negated : forall e, e <> negated e.
Proof. intros e E. apply (f_equal nest) in E. cbn in E. lia. Qed.

Lemma idle_edit : forall t x y, sol_edit t x y -> x = y -> idle t x.
Proof.
  intros t x y E. destruct E; intros Q; try (injection Q; intros; congruence).
  - injection Q as -> _. now apply id_operands.
  - injection Q as ->. apply id_assign.
  - injection Q as ->. apply id_assign_false.
  - injection Q as Q. apply (f_equal (@length sstmt)) in Q. rewrite !app_length in Q. cbn in Q. lia.
  - exfalso. injection Q as Q. apply (f_equal nest) in Q. cbn [nest] in Q. pose proof (max_in (map nest args) (nest e) (in_map nest _ _ H)). lia.
  - exfalso. injection Q as Q. apply (f_equal nest) in Q. cbn [nest] in Q. apply in_map_iff in H. destruct H as (p & <- & I).
    pose proof (max_in (map (fun p => nest (snd p)) args) _ (in_map (fun p => nest (snd p)) _ _ I)). lia.
  - injection Q as Q. destruct H as (a & x & b & y & c & -> & ->). apply swap_same in Q. subst y. apply id_arguments. now exists a, x, b, c.
  - injection Q as Q. subst args'. destruct H0 as (a & x & b & y & c & A & B). rewrite A in B. apply swap_same in B. subst y. apply id_named. now exists a, x, b, c.
  - injection Q as ->. apply id_if.
  - injection Q as Q. destruct (not_negated e Q).
  - injection Q as ->. apply id_integer.
  - injection Q as Q. subst l l'. apply swap_same in Q. subst y. now apply id_lines.
  - injection Q as Q. destruct (not_negated e Q).
  - injection Q as Q. destruct (not_negated e Q).
  - injection Q as Q. apply mid_same in Q. rewrite Q in H0. discriminate H0.
Qed.

Lemma one_edit_changes : forall t l l', one_edit t l l' -> lively t l -> l' <> l.
Proof.
  intros t l l' E L Q. subst l'. destruct (edited_same _ _ _ E eq_refl) as (x & I & H). exact (L x I (idle_edit t x x H eq_refl)).
Qed.

(** ** Braces *)

Fixpoint bs (s : sstmt) : nat :=
  match s with
  | CBlock _ l => Datatypes.S (list_sum (map bs l))
  | CIf _ a b => bs a + match b with Some b => bs b | None => 0 end
  | CWhile _ s | CDo s _ => bs s
  | CFor i _ _ s => match i with Some i => bs i | None => 0 end + bs s
  | _ => 0
  end.
Definition obs (o : option sstmt) : nat := match o with Some s => bs s | None => 0 end.
Definition bm (m : smember) : nat := match m with MFun f => obs (sf_body f) | MModifier _ _ _ _ b => obs b | _ => 0 end.
Definition bp (p : stop) : nat := match p with PContract _ _ _ _ l => list_sum (map bm l) | PMember m => bm m | _ => 0 end.
Definition blocks (t : thing) : nat :=
  match t with TE _ | TV _ => 0 | TS s => bs s | TM m => bm m | TP p => bp p | TU l => list_sum (map bp l) end.

Lemma step_blocks : forall c c' t t', step c c' t t' -> blocks t + blocks c' = blocks t' + blocks c.
Proof.
  intros c c' t t' S. destruct S; cbn [blocks bs bm bp obs sf_body with_params with_modifiers with_returns with_body];
    rewrite ?map_app, ?list_sum_app; cbn [map list_sum fold_right]; unfold list_sum; try lia.
  rewrite H. cbn [obs]. lia.
Qed.
Lemma edited_blocks : forall (R : thing -> thing -> Prop) k, (forall x y, R x y -> blocks x + k <= blocks y) -> forall t t', edited R t t' -> blocks t + k <= blocks t'.
Proof. intros R k HR t t' E. induction E as [t t' H|c c' t t' S E IH]; [exact (HR _ _ H)|]. pose proof (step_blocks _ _ _ _ S). lia. Qed.

Lemma sol_edit_blocks : forall t x y, sol_edit t x y -> blocks x + 0 <= blocks y.
Proof.
  intros t x y E. destruct E; subst; cbn [blocks bs]; rewrite ?map_app, ?list_sum_app; cbn [map list_sum fold_right bs]; rewrite ?map_app, ?list_sum_app; cbn [map list_sum fold_right bs]; unfold list_sum; lia.
Qed.
Lemma brace_blocks : forall x y, brace x y -> blocks x + 1 <= blocks y.
Proof.
  intros x y E. destruct E; match goal with H : in_braces _ _ |- _ => destruct H as (_ & ->) end; cbn [blocks bm bs obs map list_sum fold_right with_body sf_body]; rewrite ?H; cbn [obs]; lia.
Qed.

Lemma edit_and_braces : forall t l l1 l', one_edit t l l1 -> same_but_braces l1 l' -> lively t l -> l' <> l.
Proof.
  intros t l l1 l' E [->|B] L; [exact (one_edit_changes t l l1 E L)|]. intros ->.
  pose proof (edited_blocks _ 0 (sol_edit_blocks t) _ _ E). pose proof (edited_blocks _ 1 brace_blocks _ _ B). lia.
Qed.

(** A part that is left as it is can be part of an edit of the program. *)
Lemma inside_edited : forall (R : thing -> thing -> Prop) x t, inside x t -> R x x -> edited R t t.
Proof. intros R x t I H. induction I as [|c t S I IH]; [now apply ed_here|exact (ed_inside _ _ _ _ _ S IH)]. Qed.

Lemma idle_exact : forall t l, one_edit t l l <-> exists x, inside x (TU l) /\ idle t x.
Proof.
  intros t l. split.
  - intros E. destruct (edited_same _ _ _ E eq_refl) as (x & I & H). exists x. split; [exact I|exact (idle_edit t x x H eq_refl)].
  - intros (x & I & D). apply (inside_edited _ x); [exact I|]. destruct D; try (constructor; assumption); try (now constructor).
    + apply se_swap_args. destruct H as (a & x & b & c & ->). now exists a, x, b, x, c.
    + apply se_swap_named; [reflexivity|]. destruct H as (a & x & b & c & ->). now exists a, x, b, x, c.
    + now apply (se_swap_lines _ _ a x b x c).
Qed.
