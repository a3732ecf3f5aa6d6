(** What the printer is up to with [h] levels of indentation it is up to with one more. *)
From Coq Require Import String Ascii List NArith ZArith Bool Lia.
From Verif Require Import Base Json MutationType SpecLiteral SpecPrinter SpecVyText SpecSolText SpecSolRead SpecSolEdit SpecSolIdle SolText SolTextStmt SolTextClaims.
Import ListNotations.
Open Scope string_scope.
Open Scope list_scope.

(** ** Lists *)

Definition pair_easy (h : nat) (kv : string * sexp) : Prop := one_line (fst kv) /\ xeasy h (snd kv).
Definition param_easy (h : nat) (p : sexp * string * string) : Prop := xeasy h (fst (fst p)) /\ In (snd (fst p)) locations /\ one_line (snd p).
Definition clause_easy (h : nat) (c : string * option (list svar) * sstmt) : Prop :=
  one_line (fst (fst c)) /\ oeasy (Forall (easy_var h)) (snd (fst c)) /\ ceasy h (snd c).

Lemma fix_all : forall h l, (fix all l := match l with [] => True | e :: l => xeasy h e /\ all l end) l <-> Forall (xeasy h) l.
Proof. intros h l. induction l as [|x l IH]; split; intros H; [constructor|exact Logic.I|destruct H as (A & B); constructor; [exact A|now apply IH]|inversion H; subst; split; [assumption|now apply IH]]. Qed.
Lemma fix_named : forall h l, (fix go (l : list (string * sexp)) :=
    match l with [] => True | kv :: l => (one_line (fst kv) /\ xeasy h (snd kv)) /\ go l end) l <-> Forall (pair_easy h) l.
Proof. intros h l. induction l as [|x l IH]; split; intros H; [constructor|exact Logic.I|destruct H as (A & B); constructor; [exact A|now apply IH]|inversion H; subst; split; [assumption|now apply IH]]. Qed.
Lemma fix_maybe : forall h (l : list (option sexp)), (fix go (l : list (option sexp)) :=
    match l with [] => True | x :: l => match x with Some e => xeasy h e | None => True end /\ go l end) l <-> Forall (oeasy (xeasy h)) l.
Proof. intros h l. induction l as [|x l IH]; split; intros H; [constructor|exact Logic.I|destruct H as (A & B); constructor; [exact A|now apply IH]|inversion H; subst; split; [assumption|now apply IH]]. Qed.
Lemma fix_param : forall h l, (fix go (l : list (sexp * string * string)) :=
         match l with
         | [] => True
         | p :: l => (xeasy h (fst (fst p)) /\ In (snd (fst p)) locations /\ one_line (snd p)) /\ go l
         end) l <-> Forall (param_easy h) l.
Proof. intros h l. induction l as [|x l IH]; split; intros H; [constructor|exact Logic.I|destruct H as (A & B); constructor; [exact A|now apply IH]|inversion H; subst; split; [assumption|now apply IH]]. Qed.
Lemma fix_stmts : forall h l, (fix go l := match l with [] => True | s :: l => ceasy h s /\ go l end) l <-> Forall (ceasy h) l.
Proof. intros h l. induction l as [|x l IH]; split; intros H; [constructor|exact Logic.I|destruct H as (A & B); constructor; [exact A|now apply IH]|inversion H; subst; split; [assumption|now apply IH]]. Qed.
Lemma fix_clauses : forall h l, (fix go (cs : list (string * option (list svar) * sstmt)) :=
         match cs with
         | [] => True
         | c :: cs => (one_line (fst (fst c)) /\ oeasy (Forall (easy_var h)) (snd (fst c)) /\ ceasy h (snd c)) /\ go cs
         end) l <-> Forall (clause_easy h) l.
Proof. intros h l. induction l as [|x l IH]; split; intros H; [constructor|exact Logic.I|destruct H as (A & B); constructor; [exact A|now apply IH]|inversion H; subst; split; [assumption|now apply IH]]. Qed.

Lemma Forall_up : forall A (P Q : A -> Prop) l, Forall (fun x => P x -> Q x) l -> Forall P l -> Forall Q l.
Proof. intros A P Q l F. induction F; intros G; inversion G; subst; constructor; auto. Qed.

(** ** Expressions *)

Lemma xeasy_up : forall e h, xeasy h e -> xeasy (Datatypes.S h) e.
Proof.
  intros e. induction e using sexp_ind2; intros h E; cbn [xeasy] in *; try tauto.
  - repeat split; try apply E; intuition.
  - repeat split; try apply E; intuition.
  - repeat split; try apply E; intuition.
  - repeat split; try apply E; intuition.
  - repeat split; try apply E; intuition.
  - destruct E as (A & B & E). split; [exact A|]. split; [auto|]. apply fix_all. apply fix_all in E. revert E. apply Forall_up. eapply Forall_impl; [|exact H]. intros x Hx. apply Hx.
  - destruct E as (A & B & E). split; [exact A|]. split; [auto|]. destruct h as [|h]; [destruct E|]. cbn [SpecVyText.inside] in *. apply fix_named. apply fix_named in E. revert E. apply Forall_up. eapply Forall_impl; [|exact H]. intros x Hx (Q & R). split; [exact Q|]. apply Hx, R.
  - destruct E as (A & B & N & E). split; [exact A|]. split; [auto|]. split; [exact N|]. apply fix_named. apply fix_named in E. revert E. apply Forall_up. eapply Forall_impl; [|exact H]. intros x Hx (Q & R). split; [exact Q|]. apply Hx, R.
  - repeat split; try apply E; intuition.
  - destruct E as (A & B & E). repeat split; auto. destruct i as [i|]; [apply H, E|exact Logic.I].
  - destruct E as (N & E). split; [exact N|]. apply fix_maybe. apply fix_maybe in E. revert E. apply Forall_up. eapply Forall_impl; [|exact H]. intros [x|] Hx; [apply Hx|auto].
  - auto.
  - destruct E as (A & B & C & E). repeat split; auto.
  - destruct E as (A & E). split; [auto|]. destruct len as [i|]; [apply H, E|exact Logic.I].
  - destruct E as (A & B & E). split; [exact A|]. split; [exact B|]. apply fix_param. apply fix_param in E. revert E. apply Forall_up. eapply Forall_impl; [|exact H]. intros x Hx (Q & R). split; [apply Hx, Q|exact R].
Qed.
Lemma oeasy_up : forall A (P Q : A -> Prop) o, (forall x, P x -> Q x) -> oeasy P o -> oeasy Q o.
Proof. intros A P Q [x|] H; cbn; auto. Qed.
Lemma xeasys_up : forall l h, Forall (xeasy h) l -> Forall (xeasy (Datatypes.S h)) l.
Proof. intros l h. apply Forall_impl. intros x. apply xeasy_up. Qed.
Lemma xmaybe_up : forall o h, oeasy (xeasy h) o -> oeasy (xeasy (Datatypes.S h)) o.
Proof. intros o h. apply oeasy_up. intros x. apply xeasy_up. Qed.

Lemma var_up : forall v h, easy_var h v -> easy_var (Datatypes.S h) v.
Proof.
  intros v h (A & B & C & D & E & F & G). split; [exact (xeasy_up _ _ A)|]. repeat split; try assumption. exact (xmaybe_up _ _ G).
Qed.
Lemma vars_up : forall l h, Forall (easy_var h) l -> Forall (easy_var (Datatypes.S h)) l.
Proof. intros l h. apply Forall_impl. intros x. apply var_up. Qed.

(** ** Statements *)

Definition body_easy (h : nat) (s : sstmt) : Prop := if is_cblock s then ceasy h s else SpecVyText.inside h (fun h => ceasy h s).
Lemma body_up : forall s h, (forall h, ceasy h s -> ceasy (Datatypes.S h) s) -> body_easy h s -> body_easy (Datatypes.S h) s.
Proof.
  intros s h H. unfold body_easy. destruct (is_cblock s); [apply H|]. destruct h as [|h]; [intros []|]. cbn [SpecVyText.inside]. apply H.
Qed.

Lemma ceasy_up : forall s h, ceasy h s -> ceasy (Datatypes.S h) s.
Proof.
  intros s. induction s using sstmt_ind'; intros h E; cbn [ceasy] in *.
  - exact (xeasy_up _ _ E).
  - destruct E as (A & B). split; [|exact (xmaybe_up _ _ B)]. revert A. apply Forall_impl. intros o. apply oeasy_up. intros x. apply var_up.
  - destruct E as [E|E]; [now left|right]. destruct h as [|h]; [destruct E|]. cbn [SpecVyText.inside] in *. apply fix_stmts. apply fix_stmts in E. revert E. apply Forall_up. eapply Forall_impl; [|exact H]. intros x Hx. apply Hx.
  - destruct E as (A & B & C & D). split; [exact (xeasy_up _ _ A)|]. split; [apply body_up; [exact IHs|exact B]|]. split; [exact C|]. destruct b as [b|]; [|exact Logic.I]. exact (body_up b h H D).
  - destruct E as (A & B). split; [exact (xeasy_up _ _ A)|auto].
  - destruct E as (A & B). split; [exact (xeasy_up _ _ A)|auto].
  - destruct E as (A & B & C & D). split; [destruct i as [i|]; [exact (H h A)|exact A]|]. split; [destruct e as [e|]; [exact (xeasy_up _ _ B)|exact B]|]. split; [exact (xmaybe_up _ _ C)|]. exact (body_up s h IHs D).
  - exact (xmaybe_up _ _ E).
  - exact (xeasy_up _ _ E).
  - exact (xeasy_up _ _ E).
  - exact Logic.I.
  - destruct E as (A & B & C & D & E). split; [exact (xeasy_up _ _ A)|]. split; [exact B|]. split; [exact (vars_up _ _ C)|]. split; [auto|]. apply fix_clauses. apply fix_clauses in E. revert E. apply Forall_up. eapply Forall_impl; [|exact H].
    intros x Hx (P & Q & R). split; [exact P|]. split; [|apply Hx, R]. revert Q. apply oeasy_up. intros l. apply vars_up.
Qed.

(** ** Members and what is outside *)

Lemma call_up : forall m h, easy_call h m -> easy_call (Datatypes.S h) m.
Proof. intros m h (A & B). split; [exact (xeasy_up _ _ A)|]. revert B. apply oeasy_up. intros l. apply xeasys_up. Qed.
Lemma calls_up : forall l h, Forall (easy_call h) l -> Forall (easy_call (Datatypes.S h)) l.
Proof. intros l h. apply Forall_impl. intros x. apply call_up. Qed.

Lemma member_up : forall m h, easy_member h m -> easy_member (Datatypes.S h) m.
Proof.
  intros m h E. destruct m; cbn [easy_member] in *.
  - exact (var_up _ _ E).
  - destruct E as (A & B & C & D & E & F & G & H & J & K & L). split; [exact A|]. split; [exact B|]. split; [exact (vars_up _ _ C)|]. split; [exact D|]. split; [exact E|]. split; [exact F|].
    split; [revert G; apply oeasy_up; intros l; apply xeasys_up|]. split; [exact H|]. split; [exact (calls_up _ _ J)|]. split; [exact (vars_up _ _ K)|]. revert L. apply oeasy_up. intros s. apply ceasy_up.
  - destruct E as (A & B & C & D). split; [exact A|]. split; [exact (vars_up _ _ B)|]. split; [exact C|]. destruct body as [b|]; [exact (ceasy_up _ _ D)|exact D].
  - split; [apply E|]. apply vars_up, E.
  - split; [apply E|]. apply vars_up, E.
  - destruct E as (A & E). split; [exact A|]. destruct h as [|h]; [destruct E|]. cbn [SpecVyText.inside] in *. exact (vars_up _ _ E).
  - destruct E as (A & B & C & E). repeat split; try assumption.
  - split; [apply E|]. apply xeasy_up, E.
  - destruct E as (A & B). split; [exact (xeasy_up _ _ A)|]. destruct t as [t|]; [exact (xeasy_up _ _ B)|exact B].
  - destruct E as (A & B & C & D). split; [exact A|]. split; [exact B|]. split; [destruct t as [t|]; [exact (xeasy_up _ _ C)|exact C]|exact Logic.I].
Qed.
Lemma top_up : forall p h, easy_top_level h p -> easy_top_level (Datatypes.S h) p.
Proof.
  intros p h E. destruct p; cbn [easy_top_level] in *; try exact E.
  - destruct E as (A & B & C & D). split; [exact A|]. split; [exact B|]. split; [exact (calls_up _ _ C)|]. destruct D as [D|D]; [now left|right]. destruct h as [|h]; [destruct D|]. cbn [SpecVyText.inside] in *.
    revert D. apply Forall_impl. intros m. apply member_up.
  - destruct m; try exact E; apply (member_up _ h E).
Qed.

(** ** Things *)

Definition teasy (h : nat) (t : thing) : Prop :=
  match t with
  | TE e => xeasy h e | TV v => easy_var h v | TS s => ceasy h s | TM m => easy_member h m | TP p => easy_top_level h p
  | TU l => Forall (easy_top_level h) l
  end.
Lemma teasy_up : forall t h, teasy h t -> teasy (Datatypes.S h) t.
Proof.
  intros [e|v|s|m|p|l] h; [apply xeasy_up|apply var_up|apply ceasy_up|apply member_up|apply top_up|]. apply Forall_impl. intros p. apply top_up.
Qed.
