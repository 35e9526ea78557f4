(** * SpawnWitness: concrete data tables and days *)

From Coq Require Import Lia Lqa.
From Verif Require Import Base State Moving Crawling Flee DataTable Spawning InputGeography Api SpecAgents SpecHistory SpecRoutes
  SpecClosures SpecZones SpecData SpecSpawn Lemmas Inv Defaults Streams ScoreFrames ExampleRun ClosureWitness ZoneWitness DataProofs SpawnProofs.
Local Open Scope string_scope.
Local Open Scope Q_scope.
Local Opaque run.

Definition reg_total : series := [(0, 10); (4, 30); (6, 20); (10, 40)].
Definition reg_C : series := [(0, 4); (5, 9)].
Definition ex_table (start_empty : Z) : dtable := DTable ["total"; "C"] [reg_total; reg_C] start_empty [].

(** Deciding that days increase *)
Fixpoint incr_ok (t : series) : bool :=
  match t with
  | [] => true
  | r :: t' => (forallb (fun r' => Qltb (fst r) (fst r')) t' && incr_ok t')%bool
  end.
Lemma increasing_ok t : incr_ok t = true -> increasing t.
Proof.
  induction t as [|r t IH]; intros H i j ri rj Hi Hj L; [destruct i; discriminate|].
  cbn in H. apply andb_prop in H as [A B]. rewrite forallb_forall in A. destruct i as [|i], j as [|j]; cbn in Hi, Hj; try lia.
  - injection Hi as <-. apply Qltb_true, A. eapply nth_error_In; eauto.
  - eapply (IH B i j); eauto. lia.
Qed.
Lemma ex_table_ok k : table_ok (ex_table k).
Proof.
  split; [now left|]. split; [reflexivity|]. constructor; [|constructor; [|constructor]]; (split; [discriminate|]); apply increasing_ok; reflexivity.
Qed.
Lemma reg_C_growing : growing reg_C.
Proof.
  intros [|[|i]] [|[|j]] a b Ha Hb L; cbn in Ha, Hb; try (destruct i; discriminate Ha); try (destruct j; discriminate Hb);
    try (injection Ha as <-; injection Hb as <-; cbn; lra); exfalso; lia.
Qed.

(** Settings that take the numbers from the field "total" *)
Definition data_S : settings := up_s_sum_from_camps (fun _ => false) ex_S.
Definition ages : demographics := [("age", Demo [VInt 10; VInt 30] [("Default", [1; 3]); ("A", [0; 1])])].

(** Days 1 to [n] in the example network, without anything between the days *)
Fixpoint days (t : Z) (n : nat) (sp : spawn_state) (e : eco) (g : rng) : res (list Z * spawn_state * eco * rng) :=
  match n with
  | O => Ok ([], sp, e, g)
  | Datatypes.S n' =>
      '(k, sp1, _, e1, g1) <- spawn_daily_displaced data_S ages t sp (ex_table 0) e g ;;
      '(ks, sp2, e2, g2) <- days (t + 1) n' sp1 e1 g1 ;; Ok (k :: ks, sp2, e2, g2)
  end.

(** Two days: five come, five should leave *)
Lemma two_days : exists sp, spawn_days (Spawn 0 0) [5; -5]%Z [5; 0]%Z sp /\ sp_debt sp = 5%Z.
Proof.
  destruct (spawn_daily_displaced data_S ages 1 (Spawn 0 0) (ex_table 0) (then_eco []) (then_rng [])) as [[[[[n1 sp1] d1] e1] g1]|] eqn:E1;
    [|vm_compute in E1; discriminate E1].
  assert (X1 : n1 = 5%Z /\ sp1 = Spawn 5 0) by (vm_compute in E1; injection E1 as <- <- _ _ _; split; reflexivity). destruct X1 as [-> ->].
  destruct (spawn_daily_displaced data_S ages 5 (Spawn 5 0) (ex_table 0) (then_eco []) (then_rng [])) as [[[[[n2 sp2] d2] e2] g2]|] eqn:E2;
    [|vm_compute in E2; discriminate E2].
  assert (X2 : n2 = 0%Z /\ sp2 = Spawn 0 5) by (vm_compute in E2; injection E2 as <- <- _ _ _; split; reflexivity). destruct X2 as [-> ->].
  exists (Spawn 0 5). split; [|reflexivity].
  assert (G1 : get_daily_difference (ex_table 0) 1 true (s_sum_from_camps data_S) = Ok (5%Z, ex_table 0)) by (vm_compute; reflexivity).
  assert (G2 : get_daily_difference (ex_table 0) 5 true (s_sum_from_camps data_S) = Ok ((-5)%Z, ex_table 0)) by (vm_compute; reflexivity).
  revert E1 E2. generalize (then_eco []) (then_rng []). intros e0 g0 E1 E2.
  apply (one_day _ [5%Z] [5%Z] (Spawn 5 0) (-5) 0 (Spawn 0 5) data_S ages 5 (ex_table 0) e0 g0 (ex_table 0) d2 e2 g2);
    [|reflexivity|reflexivity|right; discriminate|exact G2|exact E2].
  apply (one_day _ [] [] (Spawn 0 0) 5 5 (Spawn 5 0) data_S ages 1 (ex_table 0) e0 g0 (ex_table 0) d1 e1 g1);
    [constructor|reflexivity|reflexivity|right; discriminate|exact G1|exact E1].
Qed.

(** ** Counterexamples *)

(** On day 0 the sum over the camps contains the total as well. *)
Lemma day0_double : exists d n d', table_ok d /\ get_daily_difference d 0 true true = Ok (n, d') /\
  total_on d 0 true true = Ok 4%Z /\ n = 14%Z.
Proof. exists (ex_table 0). eexists. eexists. split; [apply ex_table_ok|]. vm_compute. repeat split; reflexivity. Qed.

(** With an empty start the camps are counted from zero, but the total is not. *)
Lemma start_empty_total : exists d n d', table_ok d /\ d_start_empty d = 1%Z /\ get_daily_difference d 0 true false = Ok (n, d') /\
  get_field d' "C" 0 true = Ok 0%Z /\ get_field d' "total" 0 true = Ok 10%Z.
Proof. exists (ex_table 1). eexists. eexists. split; [apply ex_table_ok|]. vm_compute. repeat split; reflexivity. Qed.
