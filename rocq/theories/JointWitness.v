(** * JointWitness: a run of two simulations that exchange people, for C93 *)

From Coq Require Import Lia.
From Verif Require Import Base State Moving Crawling Scoring Diagnostics Flee DataTable
  Spawning InputGeography Api Pflee ParApi SpecAgents SpecHistory SpecParallel Defaults ExampleRun Lemmas
  ParallelWitness Coupling SpecCoupling CouplingText CouplingWitness SpecExchange ExchangeProofs ExchangeWitness CouplingFiles SpecTurns TurnsProofs TurnsWitness SpecJoint.
Local Open Scope string_scope.
Local Open Scope list_scope.
Local Open Scope nat_scope.

(** The simulations of C81: two days, with an exchange on each; on the second day two
    people arrive in each *)
Definition region : simulation := Simulation "macro" 2 ex_oracle par_S HighLatency sender_cp a_day.
Definition district : simulation := Simulation "micro" 2 ex_oracle par_S HighLatency other_cp a_day.
Definition region_evening (t : nat) := value [] (a_day t (pair_st t 0)).
Definition district_evening (t : nat) := value [] (a_day t (pair_st t 1)).

Lemma same_pair : [program_of region district; program_of district region] = pair_of.
Proof. reflexivity. Qed.

Local Opaque prun run couple pair_st.
Lemma fit st e1 cp dirs : preachable ex_oracle 2 st ->
  cp = Cpl [0; 1; 2]%nat ["A"; "B"; "C"] ["east"; "west"; "south"] dirs [1; 1; 1]%Z -> declared e1 cp ->
  (exists e0, In e0 (map fst st) /\ map (fun l => sval (l_name l)) (e_locations e0) = ["A"; "B"; "C"]) ->
  map (fun l => sval (l_name l)) (e_locations e1) = ["A"; "B"; "C"] ->
  map (fun x => map l_numAgents (e_locations (fst x))) st = repeat (map (people_in st) [0; 1; 2]%nat) 2 ->
  takes_part ex_oracle 2 cp st.
Proof.
  intros Ok Ecp D (e0 & I0 & E0) E1 C. constructor.
  - auto with arith.
  - exact Ok.
  - exists e1, e0. split; [exact D|]. split; [exact I0|]. split; [exact (eq_trans E0 (eq_sym E1))|]. rewrite E1. split; [repeat constructor; cbn; intuition discriminate|].
    intros l I t. apply (in_map (fun l => sval (l_name l))) in I. rewrite E1 in I. destruct I as [<-|[<-|[<-|[]]]]; discriminate.
  - intros i n d K. subst cp. exact (proj1 (cp_plain _ _ _ _ _ _ K)).
  - intros i j n d d' K K'. subst cp. destruct (cp_plain _ _ _ _ _ _ K) as [_ X], (cp_plain _ _ _ _ _ _ K') as [_ Y].
    destruct X as [[-> ->]|[[-> ->]|[-> ->]]], Y as [[A ->]|[[A ->]|[A ->]]]; try discriminate A; reflexivity.
  - intros e i l I L. apply in_map_iff in I as (x & <- & I). apply (in_map (fun x => map l_numAgents (e_locations (fst x)))) in I.
    rewrite C in I. apply repeat_spec in I. assert (nth_error (map l_numAgents (e_locations (fst x))) i = Some (l_numAgents l)) as N by (rewrite nth_error_map, L; reflexivity).
    rewrite I in N. clear -N. set (f := people_in st) in *. clearbody f. destruct i as [|[|[|i]]]; cbn in N; try (injection N as <-; reflexivity). destruct i; discriminate.
Qed.

Lemma reach_more o n h st st' : preachable o n st -> prun o h st = Ok st' -> preachable o n st'.
Proof.
  intros (h0 & gs & Ln & R) H. exists (h0 ++ h), gs. split; [exact Ln|].
  Local Transparent prun. unfold prun in *. rewrite foldM_app, R. exact H.
Qed.
Local Opaque prun.

Lemma pair_now : m_now macro 0 = true /\ m_now micro 0 = true.
Proof. split; vm_compute; reflexivity. Qed.
Lemma some_eq {A} (x y : A) : Some x = Some y -> y = x.
Proof. congruence. Qed.
Lemma reach_one i o n out inp num S lat cp m : nth_error pair_of i = Some m -> m = flee_member out 0 inp num o S lat cp a_day ->
  m_now m 0 = true -> preachable o n (pair_st 0 i) -> preachable o n (pair_st 1 i).
Proof.
  intros Em -> N R0. destruct (pair_side 0 i _ ltac:(lia) Em) as (x & X & R). rewrite N in R.
  cbn [flee_member m_work m_take a_day] in X, R. injection X as <-. destruct R as (_ & texts & _ & TK & _).
  exact (couple_reachable _ _ _ _ _ _ _ _ _ R0 TK).
Qed.
Lemma pair_reach i : i < 2 -> preachable ex_oracle 2 (pair_st 0 i) /\ preachable ex_oracle 2 (pair_st 1 i).
Proof.
  intro Li. destruct pair_now as [N0 N1]. destruct i as [|[|i]]; [| |lia].
  - assert (R0 : preachable ex_oracle 2 (pair_st 0 0)) by exact (tp_run _ _ _ _ sender_takes).
    split; [exact R0|]. exact (reach_one 0 ex_oracle 2 "macro" "micro" 1 par_S HighLatency sender_cp macro eq_refl eq_refl N0 R0).
  - assert (R0 : preachable ex_oracle 2 (pair_st 0 1)) by exact (tp_run _ _ _ _ (other_takes false)).
    split; [exact R0|]. exact (reach_one 1 ex_oracle 2 "micro" "macro" 1 par_S HighLatency other_cp micro eq_refl eq_refl N1 R0).
Qed.
Lemma evening_reach i t : i < 2 -> t < 2 -> exists x, a_day t (pair_st t i) = Ok x /\ preachable ex_oracle 2 x.
Proof.
  intros Li Lt. destruct (pair_reach i Li) as [R0 R1]. destruct t as [|[|t]]; [| |lia].
  - eexists. split; [reflexivity|exact R0].
  - assert (NI : exists m, nth_error pair_of i = Some m /\ m_work m = a_day) by (destruct i as [|[|i]]; [eexists; split; reflexivity|eexists; split; reflexivity|lia]).
    destruct NI as (m & Em & W). destruct (pair_side 1 i m ltac:(lia) Em) as (x & X & _). rewrite W in X. exists x. split; [exact X|].
    exact (reach_more _ _ _ _ _ R1 X).
Qed.
Local Transparent prun run couple pair_st.

Lemma region_lives : lives 2 1 region (fun t => pair_st t 0) region_evening.
Proof.
  assert (Day : forall t, t < 2 -> a_day t (pair_st t 0) = Ok (region_evening t) /\ preachable ex_oracle 2 (region_evening t)).
  { intros t Lt. destruct (evening_reach 0 t ltac:(lia) Lt) as (x & X & R). unfold region_evening. rewrite X. auto. }
  split; [vm_compute; reflexivity|exact (fun t Lt => proj1 (Day t Lt))|]. intros t Lt _. destruct (Day t Lt) as [_ R].
  apply (fit _ sender sender_cp ["inout"; "out"; "in"]); [exact R|exact sender_list| | |vm_compute; reflexivity|].
  - apply cp0_declared. vm_compute. reflexivity.
  - exists (first_eco (region_evening t)). destruct t as [|[|t]]; [| |lia]; (split; [vm_compute; now left|vm_compute; reflexivity]).
  - destruct t as [|[|t]]; [| |lia]; vm_compute; reflexivity.
Qed.
Lemma district_lives : lives 2 1 district (fun t => pair_st t 1) district_evening.
Proof.
  assert (Day : forall t, t < 2 -> a_day t (pair_st t 1) = Ok (district_evening t) /\ preachable ex_oracle 2 (district_evening t)).
  { intros t Lt. destruct (evening_reach 1 t ltac:(lia) Lt) as (x & X & R). unfold district_evening. rewrite X. auto. }
  split; [vm_compute; reflexivity|exact (fun t Lt => proj1 (Day t Lt))|]. intros t Lt _. destruct (Day t Lt) as [_ R].
  apply (fit _ (other false) other_cp ["inout"; "in"; "out"]); [exact R|exact other_list| | |vm_compute; reflexivity|].
  - apply cp1_declared. vm_compute. reflexivity.
  - exists (first_eco (district_evening t)). destruct t as [|[|t]]; [| |lia]; (split; [vm_compute; now left|vm_compute; reflexivity]).
  - destruct t as [|[|t]]; [| |lia]; vm_compute; reflexivity.
Qed.

(** Numbers of people at the start, arrivals, left behind, at the end *)
Lemma joint_numbers :
  (people (pair_st 0 0), people (pair_st 0 1), arrivals 2 (fun t => pair_st t 0) region_evening, arrivals 2 (fun t => pair_st t 1) district_evening,
   left_behind 2 1 region region_evening, left_behind 2 1 district district_evening, people (pair_st 2 0), people (pair_st 2 1)) =
  (3, 5, 2, 2, 4, 1, 4, 3)%Z.
Proof. vm_compute. reflexivity. Qed.

(** Both finish, for one day and for two *)
Definition in_turns : list nat := [1; 1; 1] ++ List.concat rounds.
Lemma lives_less T k a start evening U : U <= T -> lives T k a start evening -> lives U k a start evening.
Proof. intros Le [E D F]. split; [exact E|intros t Lt; apply D; lia|intros t Lt; apply F; lia]. Qed.
Lemma side_less {X} T (ms : list (member X)) st U : U <= T -> side_by_side T ms st -> side_by_side U ms st.
Proof. intros Le H t i m Lt. apply H. lia. Qed.
Lemma turns_careful T : T = 1 \/ T = 2 -> careful T pair_of in_turns (at_start pair_start, no_files).
Proof. intros [-> | ->]; apply careful_ok; vm_compute; reflexivity. Qed.
Lemma turns_end T : T = 1 \/ T = 2 ->
  fst (execute T pair_of in_turns (at_start pair_start, no_files)) = [Finished (pair_st T 0); Finished (pair_st T 1)].
Proof.
  intro H. pose proof (turns_careful T H) as C. destruct (execute T pair_of in_turns (at_start pair_start, no_files)) as [phs d] eqn:E. cbn [fst].
  assert (S : side_by_side T pair_of pair_st) by (apply (side_less 2); [destruct H; lia|exact pair_side]).
  assert (En : enough T pair_of <= List.length rounds) by (unfold rounds; rewrite repeat_length; destruct H as [-> | ->]; vm_compute; lia).
  pose proof (f_finishes T pair_of pair_st pair_partners S [1; 1; 1] rounds phs d En rounds_ok C E) as F.
  pose proof (proj1 (f_result T pair_of pair_st pair_partners S in_turns phs d C E)) as Len.
  pose proof (F 0 ltac:(cbn; lia)) as F0. pose proof (F 1 ltac:(cbn; lia)) as F1. clear -F0 F1 Len.
  destruct phs as [|p [|q [|r phs]]]; try discriminate Len. cbn [nth_error] in F0, F1. apply some_eq in F0, F1. now rewrite <- F0, <- F1.
Qed.
Lemma region_list : s_coupling region = Cpl [0; 1; 2]%nat ["A"; "B"; "C"] ["east"; "west"; "south"] ["inout"; "out"; "in"] [1; 1; 1]%Z.
Proof. vm_compute. reflexivity. Qed.
Lemma district_list : s_coupling district = Cpl [0; 1; 2]%nat ["A"; "B"; "C"] ["east"; "west"; "south"] ["inout"; "in"; "out"] [1; 1; 1]%Z.
Proof. vm_compute. reflexivity. Qed.
Lemma first_day_none : people_in (region_evening 0) 2 = 0%Z /\ people_in (district_evening 0) 1 = 0%Z.
Proof. split; vm_compute; reflexivity. Qed.
Lemma first_day_empty :
  (forall t i name dir, t < 1 -> (1 | Z.of_nat t)%Z -> coupled (s_coupling region) i name dir -> ~ says "out" dir -> people_in (region_evening t) i = 0%Z) /\
  (forall t i name dir, t < 1 -> (1 | Z.of_nat t)%Z -> coupled (s_coupling district) i name dir -> ~ says "out" dir -> people_in (district_evening t) i = 0%Z).
Proof.
  assert (SI : forall d, str_in "out" d = true -> says "out" d) by (intros d E; apply says_in; [discriminate|exact E]).
  split; intros t i name dir Lt _ C N; (assert (t = 0) as -> by lia).
  - rewrite region_list in C. destruct (three _ _ _ _ _ eq_refl _ _ _ C) as (k & Lk & -> & _ & Dk).
    destruct k as [|[|[|k]]]; [| | |lia]; injection Dk as <-; try (exfalso; apply N, SI; reflexivity). exact (proj1 first_day_none).
  - rewrite district_list in C. destruct (three _ _ _ _ _ eq_refl _ _ _ C) as (k & Lk & -> & _ & Dk).
    destruct k as [|[|[|k]]]; [| | |lia]; injection Dk as <-; try (exfalso; apply N, SI; reflexivity). exact (proj2 first_day_none).
Qed.
Lemma first_numbers : (people (pair_st 0 0), people (pair_st 0 1), people (pair_st 1 0), people (pair_st 1 1)) = (3, 5, 5, 3)%Z.
Proof. vm_compute. reflexivity. Qed.
Lemma region_leads : leads_to (s_coupling region) (s_coupling district) /\ leads_to (s_coupling district) (s_coupling region).
Proof. exact (conj sender_leads other_leads). Qed.
Lemma names_differ : s_name region <> s_name district.
Proof. discriminate. Qed.
Lemma start_list : pair_start = [pair_st 0 0; pair_st 0 1].
Proof. reflexivity. Qed.

Lemma joint_case : s_name region <> s_name district /\
  lives 2 1 region (fun t => pair_st t 0) region_evening /\ lives 2 1 district (fun t => pair_st t 1) district_evening /\
  leads_to (s_coupling region) (s_coupling district) /\ leads_to (s_coupling district) (s_coupling region) /\
  side_by_side 2 [program_of region district; program_of district region] pair_st /\
  careful 2 [program_of region district; program_of district region] in_turns (at_start [pair_st 0 0; pair_st 0 1], no_files) /\
  fst (execute 2 [program_of region district; program_of district region] in_turns (at_start [pair_st 0 0; pair_st 0 1], no_files)) =
    [Finished (pair_st 2 0); Finished (pair_st 2 1)] /\
  (people (pair_st 0 0), people (pair_st 0 1), arrivals 2 (fun t => pair_st t 0) region_evening, arrivals 2 (fun t => pair_st t 1) district_evening,
   left_behind 2 1 region region_evening, left_behind 2 1 district district_evening, people (pair_st 2 0), people (pair_st 2 1)) =
  (3, 5, 2, 2, 4, 1, 4, 3)%Z.
Proof.
  rewrite same_pair, <- start_list.
  exact (conj names_differ (conj region_lives (conj district_lives (conj (proj1 region_leads) (conj (proj2 region_leads) (conj pair_side
    (conj (turns_careful 2 (or_intror eq_refl)) (conj (turns_end 2 (or_intror eq_refl)) joint_numbers)))))))).
Qed.
Lemma first_case : s_name region <> s_name district /\
  lives 1 1 region (fun t => pair_st t 0) region_evening /\ lives 1 1 district (fun t => pair_st t 1) district_evening /\
  leads_to (s_coupling region) (s_coupling district) /\ leads_to (s_coupling district) (s_coupling region) /\
  side_by_side 1 [program_of region district; program_of district region] pair_st /\
  (forall t i name dir, t < 1 -> (1 | Z.of_nat t)%Z -> coupled (s_coupling region) i name dir -> ~ says "out" dir -> people_in (region_evening t) i = 0%Z) /\
  (forall t i name dir, t < 1 -> (1 | Z.of_nat t)%Z -> coupled (s_coupling district) i name dir -> ~ says "out" dir -> people_in (district_evening t) i = 0%Z) /\
  careful 1 [program_of region district; program_of district region] in_turns (at_start [pair_st 0 0; pair_st 0 1], no_files) /\
  fst (execute 1 [program_of region district; program_of district region] in_turns (at_start [pair_st 0 0; pair_st 0 1], no_files)) =
    [Finished (pair_st 1 0); Finished (pair_st 1 1)] /\
  (people (pair_st 0 0), people (pair_st 0 1), people (pair_st 1 0), people (pair_st 1 1)) = (3, 5, 5, 3)%Z.
Proof.
  rewrite same_pair, <- start_list.
  assert (Le : 1 <= 2) by lia.
  exact (conj names_differ (conj (lives_less _ _ _ _ _ _ Le region_lives) (conj (lives_less _ _ _ _ _ _ Le district_lives)
    (conj (proj1 region_leads) (conj (proj2 region_leads) (conj (side_less _ _ _ _ Le pair_side)
    (conj (proj1 first_day_empty) (conj (proj2 first_day_empty)
    (conj (turns_careful 1 (or_introl eq_refl)) (conj (turns_end 1 (or_introl eq_refl)) first_numbers)))))))))).
Qed.
Lemma people_vanish : exists T k a b st evening_a evening_b schedule xa xb, s_name a <> s_name b /\ k <> 0%Z /\
  lives T k a (fun t => st t 0) evening_a /\ lives T k b (fun t => st t 1) evening_b /\
  leads_to (s_coupling a) (s_coupling b) /\ leads_to (s_coupling b) (s_coupling a) /\
  side_by_side T [program_of a b; program_of b a] st /\
  careful T [program_of a b; program_of b a] schedule (at_start [st 0 0; st 0 1], no_files) /\
  fst (execute T [program_of a b; program_of b a] schedule (at_start [st 0 0; st 0 1], no_files)) = [Finished xa; Finished xb] /\
  (people (st 0%nat 0%nat) + people (st 0%nat 1%nat) + arrivals T (fun t => st t 0%nat) evening_a + arrivals T (fun t => st t 1%nat) evening_b = 12 /\
   people xa + people xb = 7)%Z.
Proof.
  exists 2, 1%Z, region, district, pair_st, region_evening, district_evening, in_turns, (pair_st 2 0), (pair_st 2 1).
  destruct joint_case as (A & B & C & D & E & F & G & H & _).
  split; [exact A|]. split; [discriminate|]. split; [exact B|]. split; [exact C|]. split; [exact D|]. split; [exact E|]. split; [exact F|].
  split; [exact G|]. split; [exact H|]. split; vm_compute; reflexivity.
Qed.
