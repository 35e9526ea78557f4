(** * CouplingWitness: concrete coupled simulations *)

From Verif Require Import Base State Moving Crawling Scoring Diagnostics Flee DataTable
  Spawning InputGeography Api Pflee ParApi SpecAgents SpecHistory SpecParallel Defaults ExampleRun ExampleTravel Lemmas
  ParallelWitness ClosureWitness Coupling SpecCoupling CouplingText.
Local Open Scope Q_scope.
Local Open Scope string_scope.
Local Open Scope list_scope.
Local Opaque prun run.

(** A: incoming and outgoing, B: outgoing, C: incoming *)
Definition cp0 (e : eco) : res coupling :=
  c1 <- add_coupled 0 "east" "inout" 1 e no_coupling ;;
  c2 <- add_coupled 1 "west" "out" 1 e c1 ;;
  add_coupled 2 "south" "in" 1 e c2.
Definition cp_end (r : res coupling) : coupling := match r with Ok c => c | Err _ => no_coupling end.
Lemma cp0_declared e : is_ok (cp0 e) = true -> declared e (cp_end (cp0 e)).
Proof.
  unfold cp0. destruct (add_coupled 0 "east" "inout" 1 e no_coupling) as [c1|] eqn:E1; [|discriminate]. cbn [bind].
  destruct (add_coupled 1 "west" "out" 1 e c1) as [c2|] eqn:E2; [|discriminate]. cbn [bind].
  destruct (add_coupled 2 "south" "in" 1 e c2) as [c3|] eqn:E3; [|discriminate]. intros _. cbn [cp_end].
  eapply declared_more; [|exact E3]. eapply declared_more; [|exact E2]. eapply declared_more; [|exact E1]. constructor.
Qed.

(** Two agents in A, one in B *)
Definition two_one : list pop := [add_A; add_A; PInsertAgents [1; 1]%nat 1; PUpdateNumAgents HighLatency true].
Definition first_eco (st : list (eco * rng)) : eco := match st with (e, _) :: _ => e | [] => empty_eco end.
Definition sender : eco := first_eco (par_end two_one).
Definition sender_cp : coupling := cp_end (cp0 sender).
Definition lf : string := String newline "".

Lemma comma_name : exists e cp text d, declared e cp /\ certain e cp /\ sends e cp "a,b" 2 /\
  output_csv e cp = Ok text /\ extract_text cp text = Ok d /\ dict_get "a,b" d = None.
Proof.
  destruct (add_coupled 0 "a,b" "out" 1 sender no_coupling) as [cp|] eqn:E; [|vm_compute in E; discriminate E].
  assert (T : exists text, output_csv sender cp = Ok text /\ extract_text cp text = Ok []).
  { vm_compute in E. injection E as <-. exists ("a,b,2" ++ lf)%string. split; vm_compute; reflexivity. }
  destruct T as (text & T1 & T2). exists sender, cp, text, []. split; [eapply declared_more; [constructor|exact E]|].
  assert (S : forall n z, sends sender cp n z <-> n = "a,b" /\ z = 2%Z).
  { intros n z. vm_compute in E. injection E as <-. split.
    - intros (i & d & l & (k & A & B & C) & D & El & <-). cbn [cp_ids cp_names cp_directions] in *.
      destruct k as [|[|k]]; try discriminate A. injection A as <-. injection B as <-. split; [reflexivity|].
      vm_compute in El. injection El as <-. reflexivity.
    - intros [-> ->]. destruct (nth_error (e_locations sender) 0) as [l|] eqn:El; [|vm_compute in El; discriminate El].
      exists 0%nat, "out", l. split; [exists 0%nat; repeat split|]. split; [now exists "", ""|]. split; [exact El|]. vm_compute in El. injection El as <-. reflexivity. }
  split; [|split; [|repeat split; assumption]].
  - intros n y z Y Z. apply S in Y as [_ ->], Z as [_ ->]. reflexivity.
  - apply S. auto.
Qed.

Lemma later_name : exists cp, (exists e, declared e cp) /\
  is_ok (read_input cp [("east,1" ++ lf)%string; ("east,1" ++ lf ++ "west,2" ++ lf)%string]) = false /\
  is_ok (read_input cp [("east,1" ++ lf ++ "west,2" ++ lf)%string; ("east,1" ++ lf)%string]) = true.
Proof.
  exists sender_cp. split; [exists sender; apply cp0_declared; vm_compute; reflexivity|]. split; vm_compute; reflexivity.
Qed.

Lemma no_entry : exists o S lat st cp e, preachable o 2 st /\ In e (map fst st) /\ declared e cp /\
  couple o S lat 0 ["east,3"] cp st = Err KeyError.
Proof.
  exists ex_oracle, par_S, HighLatency, (par_end two_one), sender_cp, sender.
  split; [apply par_reachable; vm_compute; reflexivity|]. split; [vm_compute; now left|].
  split; [apply cp0_declared; vm_compute; reflexivity|]. vm_compute. reflexivity.
Qed.

Lemma serial_fails : exists o e g cp, reachable o e g /\ declared e cp /\ e_agents e <> [] /\
  couple_serial 0 [("south,3" ++ lf)%string] cp e = Err TypeError.
Proof.
  destruct (add_coupled 2 "south" "in" 1 (then_eco []) no_coupling) as [cp|] eqn:E; [|vm_compute in E; discriminate E].
  exists ex_oracle, (then_eco []), (then_rng []), cp. split; [exact reach0|].
  split; [eapply declared_more; [constructor|exact E]|]. vm_compute in E. injection E as <-. split; [vm_compute; discriminate|vm_compute; reflexivity].
Qed.
