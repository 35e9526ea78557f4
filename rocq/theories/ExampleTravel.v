(** * ExampleTravel: concrete journeys, to show that hypotheses are met *)

From Coq Require Import Lia Lqa.
From Verif Require Import Base State Moving Crawling Scoring Diagnostics Flee DataTable
  Spawning InputGeography Api SpecAgents SpecHistory SpecRoutes SpecTravel Defaults ExampleRun Lemmas.
Local Open Scope Q_scope.
Local Open Scope string_scope.

(** ** A decidable sufficient condition for uniform speeds *)

(** Links without attributes, agents that do not start on foot *)
Definition plain_link (S : settings) (e : eco) (k : link) : bool :=
  match nth_error (e_dicts e) (k_attributes k) with
  | Some [] => (Qle_bool 0 (k_distance k) && negb (s_StartOnFoot S))%bool
  | _ => false
  end.

Lemma plain_speed S e k n s : plain_link S e k = true -> speed_today S e n k s ->
  s == s_MaxMoveSpeed S /\ 0 <= k_distance k.
Proof.
  unfold plain_link. intros P (d & v & wp & D & V & W & C). rewrite D in P. destruct d; [|discriminate].
  apply Bool.andb_true_iff in P as [P1 P2]. apply Qle_bool_iff in P1. split; [|assumption].
  cbn in V. injection V as <-. cbn in W. injection W as <-.
  destruct C as [[C _]|[_ ->]]; [exfalso; revert C; now vm_compute|].
  apply Bool.negb_true_iff in P2. rewrite P2, Bool.andb_false_r. lra.
Qed.

Definition all_plain (S : settings) (e : eco) : bool :=
  (forallb (plain_link S e) (e_links e) && Qle_bool 0 (s_MaxMoveSpeed S))%bool.

Lemma plain_up_to S e : all_plain S e = true -> speeds_up_to (s_MaxMoveSpeed S) S e.
Proof.
  intros P ki k K. apply Bool.andb_true_iff in P as [P1 P2]. apply Qle_bool_iff in P2.
  rewrite forallb_forall in P1. specialize (P1 k (nth_error_In _ _ K)). split.
  - unfold plain_link in P1. destruct (nth_error (e_dicts e) (k_attributes k)) as [[|]|]; try discriminate.
    apply Bool.andb_true_iff in P1 as [P1 _]. now apply Qle_bool_iff.
  - intros n s Sp. apply (plain_speed _ _ _ _ _ P1) in Sp as [Sp _]. lra.
Qed.

Lemma plain_steady S c e n ki v : all_plain S e = true -> v == s_MaxMoveSpeed S -> steady n ki v S c e.
Proof.
  intros P V _ k s K Sp. apply Bool.andb_true_iff in P as [P1 _]. rewrite forallb_forall in P1.
  apply (plain_speed _ _ _ _ _ (P1 k (nth_error_In _ _ K))) in Sp as [Sp _]. lra.
Qed.

(** The condition holds before every call of a history. *)
Fixpoint plain_run (v : Q) (o : oracle) (h : history) (e : eco) (g : rng) : bool :=
  match h with
  | [] => true
  | c :: h' =>
      (all_plain (fst c) e && Qeq_bool v (s_MaxMoveSpeed (fst c)) &&
       negb (Qle_bool (s_MaxMoveSpeed (fst c)) 0) &&
       match step o (fst c) (snd c) e g with Ok (e1, g1) => plain_run v o h' e1 g1 | Err _ => true end)%bool
  end.

Lemma plain_run_during (P : settings -> op -> eco -> Prop) v o h :
  (forall S c e, all_plain S e = true -> v == s_MaxMoveSpeed S -> 0 < s_MaxMoveSpeed S -> P S c e) ->
  forall e g, plain_run v o h e g = true -> during P o h e g.
Proof.
  intro HP. induction h as [|c h IH]; cbn [plain_run during]; intros e g H; [exact I|].
  apply Bool.andb_true_iff in H as [H H2]. apply Bool.andb_true_iff in H as [H H3].
  apply Bool.andb_true_iff in H as [H0 H1]. apply Qeq_bool_iff in H1. split.
  - apply HP; auto. apply Bool.negb_true_iff in H3. apply Qnot_le_lt. intro X. apply Qle_bool_iff in X. congruence.
  - destruct (step o (fst c) (snd c) e g) as [[e1 g1]|]; [now apply IH|exact I].
Qed.

(** ** One road *)

(** Two conflict zones at a distance of [d] kilometres, and one agent *)
Definition road (d : Q) : list op :=
  [ OAddLocation nA "r" 0 0 (Some "conflict_zone") 1 (-1) 100 false "X" (Some []);
    OAddLocation nB "r" 1 0 (Some "conflict_zone") 1 (-1) 50 false "X" (Some []);
    OLinkUp "A" "B" d false None; OAddAgent 0 [] ].

Definition road_S : settings := up_s_log_agent (fun _ => 1%Z) (up_s_MaxMoveSpeed (fun _ => 200) default_settings).
Definition road_history (d : Q) (more : list op) : history := map (pair road_S) (road d ++ more).
Definition road_run (d : Q) (more : list op) : res (eco * rng) :=
  run ex_oracle (road_history d more) empty_eco (rng_const (1 # 4)).
Definition road_eco (d : Q) (more : list op) : eco := end_eco (road_run d more).
Definition road_rng (d : Q) (more : list op) : rng := end_rng (road_run d more).

Definition a_day : op := OEvolve 10.

Lemma road_rng_ok : rng_ok (rng_const (1 # 4)).
Proof. split; intro n; split; discriminate || reflexivity. Qed.

Local Opaque run.

Lemma road_reachable d more : is_ok (road_run d more) = true ->
  reachable ex_oracle (road_eco d more) (road_rng d more).
Proof.
  exact (fun H => ex_intro _ (road_history d more) (ex_intro _ (rng_const (1 # 4)) (end_ok (road_run d more) H))).
Qed.
