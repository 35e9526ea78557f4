(** * ClosureWitness: concrete networks for the properties of closures *)

From Coq Require Import Lia Permutation.
From Verif Require Import Base State Moving Crawling Flee DataTable Spawning InputGeography Api SpecAgents SpecHistory SpecRoutes SpecClosures
  Lemmas Inv Defaults ExampleRun.
Local Opaque run.

(** ** Deciding the hypotheses on concrete networks *)

Definition clash (a b : location) : bool :=
  (String.eqb (sval (l_name a)) (sval (l_name b)) || Nat.eqb (sid (l_name a)) (sid (l_name b)))%bool.
Fixpoint no_clash (ls : list location) : bool :=
  match ls with [] => true | l :: ls => (forallb (fun l' => negb (clash l l')) ls && no_clash ls)%bool end.

Lemma clash_spec a b : clash a b = true <-> (sval (l_name a) = sval (l_name b) \/ sid (l_name a) = sid (l_name b)).
Proof. unfold clash. rewrite Bool.orb_true_iff, String.eqb_eq, Nat.eqb_eq. reflexivity. Qed.

Lemma distinct_ok e : no_clash (e_locations e) = true -> distinct_names e.
Proof.
  unfold distinct_names. generalize (e_locations e). intro ls. induction ls as [|l ls IH]; intros H i j a b Hi Hj C.
  - destruct i; discriminate.
  - cbn in H. apply andb_prop in H as [H1 H2]. rewrite forallb_forall in H1.
    destruct i as [|i], j as [|j]; cbn in Hi, Hj; auto.
    + injection Hi as <-. apply nth_error_In in Hj. specialize (H1 _ Hj). apply clash_spec in C. rewrite C in H1. discriminate.
    + injection Hj as <-. apply nth_error_In in Hi. specialize (H1 _ Hi).
      assert (clash l a = true) as X by (apply clash_spec; intuition congruence). rewrite X in H1. discriminate.
    + f_equal. eapply IH; eauto.
Qed.

Lemma opens_beyond e p : (List.length (e_locations e) <= p)%nat -> opens e p = [].
Proof. intro H. unfold opens. apply nth_error_None in H. now rewrite H. Qed.
Lemma closeds_beyond e p : (List.length (e_locations e) <= p)%nat -> closeds e p = [].
Proof. intro H. unfold closeds. apply nth_error_None in H. now rewrite H. Qed.

Lemma symmetric_ok e i :
  forallb (fun p => forallb (fun k => (negb (to_place i k) || existsb (to_place p) (opens e i))%bool) (opens e p))
          (seq 0 (List.length (e_locations e))) = true -> symmetric_at e i.
Proof.
  intros H p k Hk T. destruct (Nat.le_gt_cases (List.length (e_locations e)) p) as [L|L].
  - rewrite opens_beyond in Hk by assumption. destruct Hk.
  - rewrite forallb_forall in H. specialize (H p). rewrite in_seq in H. specialize (H ltac:(lia)).
    rewrite forallb_forall in H. specialize (H k Hk). rewrite T in H. cbn in H. now apply existsb_exists in H.
Qed.
Lemma no_loop_ok e i : existsb (to_place i) (opens e i) = false -> no_loop e i.
Proof.
  intros H k Hk. destruct (to_place i k) eqn:T; [|reflexivity].
  assert (existsb (to_place i) (opens e i) = true) by (apply existsb_exists; eauto). congruence.
Qed.
Lemma loop_ok e i : existsb (to_place i) (opens e i) = true -> ~ no_loop e i.
Proof. intros H N. apply existsb_exists in H as (k & A & B). rewrite (N k A) in B. discriminate. Qed.

Lemma all_closed_ok e (f : nat -> link -> bool) :
  forallb (fun i => forallb (fun k => negb (f i k)) (closeds e i)) (seq 0 (List.length (e_locations e))) = true ->
  forall i k, In k (closeds e i) -> f i k = false.
Proof.
  intros H p k Hk. destruct (Nat.le_gt_cases (List.length (e_locations e)) p) as [L|L].
  - rewrite closeds_beyond in Hk by assumption. destruct Hk.
  - rewrite forallb_forall in H. specialize (H p). rewrite in_seq in H. specialize (H ltac:(lia)).
    rewrite forallb_forall in H. specialize (H k Hk). now apply Bool.negb_true_iff in H.
Qed.

Lemma no_name_ok e n : forallb (fun l => negb (String.eqb (lname l) n)) (e_locations e) = true ->
  forall l, In l (e_locations e) -> lname l <> n.
Proof. intros H l Hl E. rewrite forallb_forall in H. specialize (H l Hl). rewrite E, String.eqb_refl in H. discriminate H. Qed.

(** ** The example network after one day, and variants *)

Definition then_ (h : list op) : res (eco * rng) :=
  run ex_oracle (map (pair ex_S) (ex_build ++ [OEvolve 10] ++ h)%list) empty_eco ex_draws.
Definition then_eco h := end_eco (then_ h).
Definition then_rng h := end_rng (then_ h).
Lemma then_reachable h : is_ok (then_ h) = true -> reachable ex_oracle (then_eco h) (then_rng h).
Proof. exact (fun H => ex_intro _ _ (ex_intro _ _ (end_ok (then_ h) H))). Qed.

(** Number of open and closed roads of each location *)
Definition counts (e : eco) : list (nat * nat) :=
  map (fun i => (List.length (opens e i), List.length (closeds e i))) (seq 0 (List.length (e_locations e))).
(** End points of the open roads of each location *)
Definition ends (e : eco) : list (list nat) :=
  map (fun i => map k_endpoint (opens e i)) (seq 0 (List.length (e_locations e))).

Lemma reach0 : reachable ex_oracle (then_eco []) (then_rng []).
Proof. apply then_reachable. vm_compute. reflexivity. Qed.
Lemma distinct0 : distinct_names (then_eco []).
Proof. apply distinct_ok. vm_compute. reflexivity. Qed.
