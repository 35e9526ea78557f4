(** * ScheduleWitness: concrete conflict tables *)

From Coq Require Import Lia.
From Verif Require Import Base State Moving Crawling Scoring Diagnostics Flee DataTable
  Spawning InputGeography Api SpecAgents SpecHistory SpecZones SpecSchedule Defaults ExampleRun ClosureWitness ZoneWitness Lemmas.
Local Open Scope Q_scope.
Local Open Scope string_scope.
Local Open Scope list_scope.

Local Opaque run.

(** A program with one time step per day *)
Definition table (n : string) (vals : list Q) : igeo := IGeo [] None [] None [] None (Some []) [(n, vals)] [].
Definition table_days (ig : igeo) (k : nat) : history :=
  flat_map (fun t => [(ex_S, OAddNewConflictZones true ig (Z.of_nat t)); (ex_S, OEvolve 10)]) (seq 0 k).

Lemma days_scheduled n vals k : scheduled (table n vals) 0 (table_days (table n vals) k) (Z.of_nat k).
Proof.
  unfold table_days. change 0%Z with (Z.of_nat 0).
  assert (X : forall a, scheduled (table n vals) (Z.of_nat a)
    (flat_map (fun t => [(ex_S, OAddNewConflictZones true (table n vals) (Z.of_nat t)); (ex_S, OEvolve 10)]) (seq a k)) (Z.of_nat (a + k))).
  { induction k as [|k IH]; intro a; cbn [seq flat_map app].
    - rewrite Nat.add_0_r. constructor.
    - eapply sched_day; [reflexivity|reflexivity|intros r []|]. apply sched_other; [reflexivity|].
      specialize (IH (Datatypes.S a)). replace (Z.of_nat a + 1)%Z with (Z.of_nat (Datatypes.S a)) by lia.
      replace (a + Datatypes.S k)%nat with (Datatypes.S a + k)%nat by lia. exact IH. }
  exact (X 0%nat).
Qed.
Definition not_enact (c : op) : bool := match c with OEnactBorderClosures _ _ _ => false | _ => true end.
Lemma days_stay o h : forallb (fun sc => not_enact (snd sc)) h = true -> forall e g, during camps_stay o h e g.
Proof.
  induction h as [|[S c] h IH]; intros H e g; [exact I|]. cbn [forallb snd] in H. apply andb_prop in H as [H1 H].
  cbn [during fst snd]. split; [destruct c; try exact I; discriminate H1|]. destruct (step o S c e g) as [[e1 g1]|]; auto.
Qed.

Lemma table_first : exists l, first_named (then_eco []) "B" 1 l /\ l_conflict l <= 0.
Proof.
  destruct (nth_error (e_locations (then_eco [])) 1) as [l|] eqn:E; [|vm_compute in E; discriminate E].
  exists l. split; [|vm_compute in E; injection E as <-; discriminate].
  split; [exact E|]. split; [vm_compute in E; injection E as <-; reflexivity|].
  intros [|j] m J Hm; [|lia]. vm_compute in Hm. injection Hm as <-. discriminate.
Qed.

Definition levels (n : string) (vals : list Q) (k : nat) : res (list Q) :=
  rmap (fun r => map l_conflict (e_locations (fst r))) (run ex_oracle (table_days (table n vals) k) (then_eco []) (then_rng [])).

Lemma at_end {A} (f : location -> A) (r : res (eco * rng)) vs i v :
  rmap (fun s => map f (e_locations (fst s))) r = Ok vs -> nth_error vs i = Some v ->
  exists l, nth_error (e_locations (end_eco r)) i = Some l /\ f l = v /\ r = Ok (end_eco r, end_rng r).
Proof.
  destruct r as [[e g]|x]; cbn [rmap bind fst end_eco end_rng]; [|discriminate]. intros H N. injection H as <-.
  rewrite nth_error_map in N. destruct (nth_error (e_locations e) i) as [l|]; [|discriminate N]. injection N as N. eauto.
Qed.

Lemma exact_value : exists o ig e g h e' g' l', reachable o e g /\
  (exists l, first_named e "B" 1 l /\ l_conflict l <= 0) /\ ig_conflicts ig = [("B", [1; conflict_from])] /\
  scheduled ig 0 h 2 /\ during camps_stay o h e g /\ run o h e g = Ok (e', g') /\
  nth_error (e_locations e') 1 = Some l' /\ 0 < l_conflict l'.
Proof.
  destruct (at_end l_conflict (run ex_oracle (table_days (table "B" [1; conflict_from]) 2) (then_eco []) (then_rng [])) [1; 1; -1] 1 1)
    as (l' & El & V & R); [vm_compute; reflexivity|reflexivity|].
  exists ex_oracle, (table "B" [1; conflict_from]). do 5 eexists. exists l'. split; [exact reach0|]. split; [exact table_first|]. split; [|split; [|split; [|split; [exact R|split; [exact El|]]]]].
  - reflexivity.
  - apply (days_scheduled "B" _ 2).
  - apply days_stay; reflexivity.
  - rewrite V. reflexivity.
Qed.

Lemma initial_zone : exists o ig e g h e' g' l', reachable o e g /\
  ig_conflicts ig = [("A", [0; 0])] /\
  scheduled ig 0 h 2 /\ during camps_stay o h e g /\ run o h e g = Ok (e', g') /\
  nth_error (e_locations e') 0 = Some l' /\ lname l' = "A" /\ 0 < l_conflict l'.
Proof.
  destruct (at_end (fun l => (lname l, l_conflict l)) (run ex_oracle (table_days (table "A" [0; 0]) 2) (then_eco []) (then_rng []))
    [("A", 1); ("B", -1); ("C", -1)] 0 ("A", 1)) as (l' & El & V & R); [vm_compute; reflexivity|reflexivity|].
  injection V as V1 V2.
  exists ex_oracle, (table "A" [0; 0]). do 5 eexists. exists l'. split; [exact reach0|]. split; [|split; [|split; [|split; [exact R|split; [exact El|]]]]].
  - reflexivity.
  - apply (days_scheduled "A" _ 2).
  - apply days_stay; reflexivity.
  - rewrite V1, V2. split; reflexivity.
Qed.
