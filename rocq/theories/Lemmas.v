(** * Lemmas about the Python fragment of [Base] *)

From Coq Require Import Lia Lqa.
From Verif Require Import Base.

(** ** Inversion of the error monad *)

Lemma bind_ok {A B} (m : res A) (k : A -> res B) b :
  bind m k = Ok b -> exists a, m = Ok a /\ k a = Ok b.
Proof. destruct m; cbn; [eauto | discriminate]. Qed.

Lemma of_option_ok {A} x (o : option A) a : of_option x o = Ok a -> o = Some a.
Proof. destruct o; cbn; congruence. Qed.

Lemma rmap_ok {A B} (f : A -> B) m b : rmap f m = Ok b -> exists a, m = Ok a /\ b = f a.
Proof. destruct m; cbn; [intros [= <-]; eauto | discriminate]. Qed.

(** One step of inversion of a hypothesis [... = Ok _]. *)
Ltac rstep H :=
  match type of H with
  | bind ?m _ = Ok _ =>
      let x := fresh "v" in let E := fresh "E" in
      destruct m as [x|x] eqn:E; cbn [bind] in H; [|discriminate H]
  | of_option _ _ = Ok _ => apply of_option_ok in H
  | rmap _ _ = Ok _ =>
      let a := fresh "v" in let E := fresh "E" in let E' := fresh "E" in
      apply rmap_ok in H; destruct H as (a & E & E')
  | (if ?b then _ else _) = Ok _ => let E := fresh "B" in destruct b eqn:E
  | (let (_, _) := ?x in _) = Ok _ => let a := fresh "a" in let b := fresh "b" in destruct x as [a b] eqn:?
  | (match ?x with _ => _ end) = Ok _ => let E := fresh "M" in destruct x eqn:E
  end.
Ltac rinv H :=
  lazymatch type of H with
  | Err _ = Ok _ => discriminate H
  | Ok _ = Ok _ => injection H; clear H; intros; subst
  | _ = Ok _ => tryif rstep H then rinv H else idtac
  | _ => idtac
  end.

(** ** Folds *)

Lemma foldM_app {A S} (f : S -> A -> res S) l1 l2 s :
  foldM f (l1 ++ l2) s = bind (foldM f l1 s) (foldM f l2).
Proof.
  revert s; induction l1; intro s; cbn; [reflexivity|].
  destruct (f s a); cbn; auto.
Qed.

Lemma foldM_inv {A S} (P : S -> Prop) (f : S -> A -> res S) l s s' :
  (forall s a s', In a l -> P s -> f s a = Ok s' -> P s') ->
  P s -> foldM f l s = Ok s' -> P s'.
Proof.
  revert s; induction l as [|a l IH]; intros s Hf HP H; cbn in H.
  - rinv H; assumption.
  - apply bind_ok in H as (s1 & H1 & H2).
    eapply IH; [| |exact H2]; [intros; eapply Hf; eauto; now right|].
    eapply Hf; eauto; now left.
Qed.

(** Relational version *)
Lemma foldM_rel {A S} (R : S -> S -> Prop) (f : S -> A -> res S) l s s' :
  (forall s, R s s) -> (forall a b c, R a b -> R b c -> R a c) ->
  (forall s a s', In a l -> f s a = Ok s' -> R s s') ->
  foldM f l s = Ok s' -> R s s'.
Proof.
  intros Hr Ht; revert s; induction l as [|a l IH]; intros s Hf H; cbn in H.
  - rinv H; apply Hr.
  - apply bind_ok in H as (s1 & H1 & H2).
    eapply Ht; [eapply Hf; [now left|exact H1] | eapply IH; [|exact H2]].
    intros; eapply Hf; eauto; now right.
Qed.

Lemma mapM_ok_length {A B} (f : A -> res B) l bs :
  mapM f l = Ok bs -> List.length bs = List.length l.
Proof.
  revert bs; induction l as [|a l IH]; intros bs H; cbn in H; rinv H; cbn; auto.
Qed.

Lemma mapM_Forall2 {A B} (f : A -> res B) l bs :
  mapM f l = Ok bs -> Forall2 (fun a b => f a = Ok b) l bs.
Proof.
  revert bs; induction l as [|a l IH]; intros bs H; cbn in H; rinv H; auto.
Qed.

Lemma mapM_nth {A B} (f : A -> res B) l bs i a :
  mapM f l = Ok bs -> nth_error l i = Some a ->
  exists b, nth_error bs i = Some b /\ f a = Ok b.
Proof.
  revert bs i; induction l as [|x l IH]; intros bs i H Hi; cbn in H; rinv H.
  - destruct i; discriminate.
  - destruct i; cbn in *; [injection Hi as ->; eauto | eauto].
Qed.

Lemma mapM_nth_inv {A B} (f : A -> res B) l bs i b :
  mapM f l = Ok bs -> nth_error bs i = Some b ->
  exists a, nth_error l i = Some a /\ f a = Ok b.
Proof.
  revert bs i; induction l as [|x l IH]; intros bs i H Hi; cbn in H; rinv H.
  - destruct i; discriminate.
  - destruct i; cbn in *; [injection Hi as ->; eauto | eauto].
Qed.

(** ** [upd] *)

Lemma upd_length {A} n (f : A -> A) l : List.length (upd n f l) = List.length l.
Proof. revert n; induction l; destruct n; cbn; auto. Qed.

Lemma nth_upd_same {A} n (f : A -> A) l :
  nth_error (upd n f l) n = option_map f (nth_error l n).
Proof. revert n; induction l; destruct n; cbn; auto. Qed.

Lemma nth_upd_other {A} n m (f : A -> A) l :
  n <> m -> nth_error (upd n f l) m = nth_error l m.
Proof.
  revert n m; induction l; destruct n, m; cbn; intros; auto; try congruence.
Qed.

Lemma nth_upd {A} n m (f : A -> A) l :
  nth_error (upd n f l) m =
  if Nat.eqb n m then option_map f (nth_error l m) else nth_error l m.
Proof.
  destruct (Nat.eqb_spec n m); [subst; apply nth_upd_same | now apply nth_upd_other].
Qed.

Lemma map_upd {A B} (g : A -> B) n f l :
  (forall a, g (f a) = g a) -> map g (upd n f l) = map g l.
Proof. intro H; revert n; induction l; destruct n; cbn; congruence. Qed.

Lemma upd_none {A} n (f : A -> A) l : nth_error l n = None -> upd n f l = l.
Proof. revert n; induction l; destruct n; cbn; intros; try discriminate; f_equal; auto. Qed.

Lemma nth_error_lt {A} (l : list A) n a : nth_error l n = Some a -> (n < List.length l)%nat.
Proof. intro H; apply nth_error_Some; congruence. Qed.

Lemma nth_error_ex {A} (l : list A) n : (n < List.length l)%nat -> exists a, nth_error l n = Some a.
Proof.
  intro H; apply nth_error_Some in H; destruct (nth_error l n); [eauto|congruence].
Qed.

Lemma nth_error_app_last {A} (l : list A) a n b :
  nth_error (l ++ [a]) n = Some b ->
  nth_error l n = Some b \/ (n = List.length l /\ b = a).
Proof.
  intro H. destruct (Nat.lt_ge_cases n (List.length l)) as [Hl|Hl].
  - left; now rewrite nth_error_app1 in H.
  - rewrite nth_error_app2 in H by assumption.
    destruct (n - List.length l)%nat eqn:E; cbn in H.
    + injection H as ->. right; split; [lia|reflexivity].
    + destruct n0; discriminate.
Qed.

(** ** Rational comparisons *)

Local Open Scope Q_scope.

Lemma Qltb_true x y : Qltb x y = true <-> x < y.
Proof.
  unfold Qltb; rewrite negb_true_iff, <- not_true_iff_false, Qle_bool_iff.
  split; [apply Qnot_le_lt | apply Qlt_not_le].
Qed.
Lemma Qltb_false x y : Qltb x y = false <-> y <= x.
Proof. unfold Qltb; now rewrite negb_false_iff, Qle_bool_iff. Qed.
Lemma Qleb_true x y : Qleb x y = true <-> x <= y.
Proof. apply Qle_bool_iff. Qed.
Lemma Qleb_false x y : Qleb x y = false <-> y < x.
Proof.
  unfold Qleb; rewrite <- not_true_iff_false, Qle_bool_iff.
  split; [apply Qnot_le_lt | apply Qlt_not_le].
Qed.
Lemma Qeqb_true x y : Qeqb x y = true <-> x == y.
Proof. apply Qeq_bool_iff. Qed.
Lemma Qeqb_false x y : Qeqb x y = false <-> ~ x == y.
Proof. unfold Qeqb; rewrite <- not_true_iff_false, Qeq_bool_iff; reflexivity. Qed.

(** Turns boolean comparison hypotheses into propositions. *)
Ltac qb :=
  repeat match goal with
  | H : Qltb _ _ = true |- _ => apply Qltb_true in H
  | H : Qltb _ _ = false |- _ => apply Qltb_false in H
  | H : Qleb _ _ = true |- _ => apply Qleb_true in H
  | H : Qleb _ _ = false |- _ => apply Qleb_false in H
  | H : Qeqb _ _ = true |- _ => apply Qeqb_true in H
  | H : Qeqb _ _ = false |- _ => apply Qeqb_false in H
  | H : negb _ = true |- _ => apply negb_true_iff in H
  | H : negb _ = false |- _ => apply negb_false_iff in H
  | H : (_ && _)%bool = true |- _ => apply andb_true_iff in H; destruct H
  | H : (_ || _)%bool = false |- _ => apply orb_false_iff in H; destruct H
  end.

(** ** Sums *)

Lemma sumZ_app l1 l2 : (sumZ (l1 ++ l2) = sumZ l1 + sumZ l2)%Z.
Proof. induction l1; cbn; lia. Qed.

Lemma sumQ_app l1 l2 : sumQ (l1 ++ l2) == sumQ l1 + sumQ l2.
Proof. induction l1; cbn; [ring | rewrite IHl1; ring]. Qed.

Lemma sumQ_nonneg l : Forall (fun w => 0 <= w) l -> 0 <= sumQ l.
Proof. induction 1; cbn; [lra|]. lra. Qed.

Lemma sumQ_map_div l t : ~ t == 0 -> sumQ (map (fun x => x / t) l) == sumQ l / t.
Proof. intro; induction l; cbn; [field; auto | rewrite IHl; field; auto]. Qed.

(** Number of elements of [l] that satisfy [f] *)
Definition countZ {A} (f : A -> bool) (l : list A) : Z :=
  Z.of_nat (List.length (filter f l)).

Lemma countZ_nonneg {A} f (l : list A) : (0 <= countZ f l)%Z.
Proof. unfold countZ; lia. Qed.

Lemma countZ_app {A} f (l1 l2 : list A) : countZ f (l1 ++ l2) = (countZ f l1 + countZ f l2)%Z.
Proof. unfold countZ; rewrite filter_app, app_length; lia. Qed.

Lemma countZ_cons {A} f a (l : list A) :
  countZ f (a :: l) = ((if f a then 1 else 0) + countZ f l)%Z.
Proof. unfold countZ; cbn; destruct (f a); cbn [List.length]; lia. Qed.

Lemma countZ_upd {A} (f : A -> bool) n g (l : list A) a :
  nth_error l n = Some a ->
  countZ f (upd n g l) =
  (countZ f l - (if f a then 1 else 0) + (if f (g a) then 1 else 0))%Z.
Proof.
  revert n; induction l as [|b l IH]; intros [|n] H; try discriminate; cbn [upd].
  - injection H as ->. rewrite !countZ_cons. lia.
  - rewrite !countZ_cons, (IH n) by assumption. lia.
Qed.

Lemma countZ_ext {A} (f g : A -> bool) l :
  (forall a, In a l -> f a = g a) -> countZ f l = countZ g l.
Proof.
  intro H; unfold countZ; f_equal; f_equal; induction l; cbn; auto.
  rewrite H by (now left). destruct (g a); rewrite IHl; auto; intros; apply H; now right.
Qed.

Lemma countZ_map {A B} (f : B -> bool) (g : A -> B) l :
  countZ f (map g l) = countZ (fun a => f (g a)) l.
Proof. induction l; [reflexivity|]. cbn [map]; rewrite !countZ_cons, IHl; reflexivity. Qed.

Lemma countZ_pos {A} (f : A -> bool) l a : In a l -> f a = true -> (0 < countZ f l)%Z.
Proof.
  intros H Hf; induction l; [easy|]. rewrite countZ_cons.
  pose proof (countZ_nonneg f l). destruct H as [->|H]; [rewrite Hf; lia|].
  specialize (IHl H). destruct (f a0); lia.
Qed.

Lemma countZ_zero {A} (f : A -> bool) l : (forall a, In a l -> f a = false) -> countZ f l = 0%Z.
Proof.
  intro H; induction l; [reflexivity|]. rewrite countZ_cons, (H a) by (now left).
  rewrite IHl; [reflexivity|]. intros; apply H; now right.
Qed.
