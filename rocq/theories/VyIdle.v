(** An edit of a Vyper program changes it unless there is an idle part. *)
From Coq Require Import String Ascii List NArith ZArith Bool Lia.
From Verif Require Import Base Json MutationType SpecLiteral SpecVyText SpecVyEdit SpecVyIdle.
Import ListNotations.
Open Scope string_scope.
Open Scope list_scope.

Lemma mid_same : forall A (u v : list A) x y, u ++ x :: v = u ++ y :: v -> x = y.
Proof. intros A u v x y E. apply app_inv_head in E. now injection E. Qed.
Lemma swap_same : forall A (a b c : list A) x y, a ++ x :: b ++ y :: c = a ++ y :: b ++ x :: c -> x = y.
Proof. intros A a b c x y E. apply app_inv_head in E. now injection E. Qed.

Lemma top_same : forall e e' t t', top_step e e' t t' -> t = t' -> e = e'.
Proof. intros e e' t t' S Q. destruct S; injection Q as Q; [exact Q|exact (mid_same _ _ _ _ _ Q)]. Qed.

Lemma step_same : forall c c' t t', step c c' t t' -> t = t' -> c = c'.
Proof.
  intros c c' t t' S. destruct S; intros E; try (injection E; intros; subst; reflexivity).
  all: try (injection E as E; apply mid_same in E; congruence).
  all: injection E as E; match goal with H : top_step _ _ _ _ |- _ => f_equal; exact (top_same _ _ _ _ H E) end.
Qed.

Lemma edited_same : forall R t t', edited R t t' -> t = t' -> exists x, inside x t /\ R x x.
Proof.
  intros R t t' E. induction E as [t t' H|c c' t t' S E IH]; intros Q.
  - subst t'. exists t. split; [apply in_here|exact H].
  - pose proof (step_same _ _ _ _ S Q) as Qc. destruct (IH Qc) as (x & I & H). exists x. split; [|exact H]. subst c' t'. exact (in_part _ _ _ S I).
Qed.

(** How deep calls and prefix operators are nested. *)
Fixpoint nest (e : vexp) : nat :=
  match e with
  | VNot a | VInvert a | VNeg a => Datatypes.S (nest a)
  | VCall _ l _ => Datatypes.S (list_max (map nest l))
  | _ => 0
  end.
Lemma max_in : forall l x, In x l -> x <= list_max l.
Proof. induction l as [|y l IH]; intros x I; [destruct I|]. cbn. destruct I as [<-|I]; [lia|]. specialize (IH x I). unfold list_max in IH. lia. Qed.

Lemma body_idle : forall (R S : list vstmt -> list vstmt -> Prop), (forall l, R l l -> S l l) -> forall x y, body_edit R x y -> x = y -> body_edit S x x.
Proof. intros R S H x y B Q. destruct B as [? ? ? ? b b' B|? ? b b' B|? b b' ? B]; injection Q as <-; constructor; exact (H _ B). Qed.

Lemma idle_edit : forall t x y, vy_edit t x y -> x = y -> idle t x.
Proof.
  intros t x y E. destruct E; intros Q; try (injection Q; intros; congruence).
  - injection Q as Q. destruct w; discriminate Q.
  - injection Q as -> _. now apply id_binary.
  - injection Q as -> _. now apply id_compare.
  - exfalso. injection Q as Q. apply (f_equal nest) in Q. cbn [nest] in Q. lia.
  - exfalso. injection Q as Q. apply (f_equal nest) in Q. cbn [nest] in Q. lia.
  - exfalso. injection Q as Q. apply (f_equal nest) in Q. cbn [nest] in Q. lia.
  - injection Q as ->. apply id_assign_int.
  - injection Q as ->. apply id_assign_bool.
  - injection Q as ->. apply id_assign_decimal.
  - exfalso. injection Q as Q. apply (f_equal nest) in Q. cbn [nest] in Q. pose proof (max_in (map nest args) (nest e) (in_map nest _ _ H)). lia.
  - injection Q as Q. destruct H as (a & x & b & y & c & -> & ->). apply swap_same in Q. subst y. apply id_arguments.
  - injection Q as ->. apply id_if.
  - exfalso. injection Q as Q. apply (f_equal nest) in Q. cbn [nest] in Q. lia.
  - apply id_integer.
  - apply id_delete. refine (body_idle _ _ _ _ _ H Q). intros l D. split; [reflexivity|]. remember l as l2 eqn:E2 in D at 2.
    destruct D as [a x b N|x l F].
    + exfalso. apply (f_equal (@length vstmt)) in E2. rewrite !app_length in E2. cbn in E2. lia.
    + subst l. split; [reflexivity|exact F].
  - exfalso. injection Q as Q. apply (f_equal (@length vdef)) in Q. rewrite !app_length in Q. cbn in Q. lia.
  - apply id_lines. refine (body_idle _ _ _ _ _ H Q). intros l (a & x & b & y & c & A & B & C & _). split; [reflexivity|].
    rewrite A in B. apply swap_same in B. subst y. exists a, x, b, c. now split.
Qed.

Lemma one_edit_changes : forall t l l', one_edit t l l' -> lively t l -> l' <> l.
Proof.
  intros t l l' E L Q. subst l'. destruct (edited_same _ _ _ E eq_refl) as (x & I & H). exact (L x I (idle_edit t x x H eq_refl)).
Qed.

Lemma inside_edited : forall (R : thing -> thing -> Prop) x t, inside x t -> R x x -> edited R t t.
Proof. intros R x t I H. induction I as [|c t S I IH]; [now apply ed_here|exact (ed_inside _ _ _ _ _ S IH)]. Qed.

Lemma idle_exact : forall t l, one_edit t l l <-> exists x, inside x (TP l) /\ idle t x.
Proof.
  intros t l. split.
  - intros E. destruct (edited_same _ _ _ E eq_refl) as (x & I & H). exists x. split; [exact I|exact (idle_edit t x x H eq_refl)].
  - intros (x & I & D). apply (inside_edited _ x); [exact I|]. destruct D; try (constructor; assumption); try (now constructor).
    + apply ve_swap_args. now exists a, x, b, x, c.
    + apply ve_swap_lines. refine (body_idle _ _ _ _ _ H eq_refl). intros l0 (_ & a & x0 & b & c & E & N). exists a, x0, b, x0, c. now split.
    + apply ve_delete. refine (body_idle _ _ _ _ _ H eq_refl). intros l0 (_ & E & F). destruct l0 as [|x0 [|]]; try discriminate E. now apply sd_only.
Qed.
