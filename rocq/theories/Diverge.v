(** * Diverge: with links of length zero a time step need not end *)

From Coq Require Import Lia.
From Verif Require Import Base State Moving Crawling Scoring Diagnostics Flee DataTable
  Spawning InputGeography Api SpecAgents SpecHistory Defaults ExampleRun.
Local Open Scope Q_scope.

(** One round of [finish_travel], calling [rec] for the rest *)
Definition round (rec : eco -> rng -> res (eco * rng)) (S : settings) (o : oracle) (time : Z) (ai : nat)
    (e : eco) (g : rng) : res (eco * rng) :=
  a <- agent_of e ai ;;
  if negb (a_travelling a) then Ok (e, g)
  else
    match a_location a with
    | PLink ki =>
        k <- link_of e ki ;;
        '(speed, g1) <- travel_speed S e a k g ;;
        let onlink := a_distance_travelled_on_link a + speed in
        let moved := a_distance_moved_this_timestep a + speed in
        let e1 := up_agent ai (fun a =>
                    up_a_distance_travelled_on_link (fun _ => onlink)
                      (up_a_distance_moved_this_timestep (fun _ => moved) a)) e in
        if Qltb (k_distance k) onlink then
          (* destination reached, lines 233-285 *)
          let moved2 := moved + (k_distance k - onlink) in
          let e2 := up_agent ai (fun a =>
                      up_a_places_travelled (fun z => z + 1)%Z
                        (up_a_distance_moved_this_timestep (fun _ => moved2)
                          (if (0 <? s_log_agent S)%Z
                           then up_a_distance_travelled (fun q => q + k_distance k) a
                           else a))) e1 in
          if k_closed k then
            e3 <- handle_travel S ai (PLoc (k_startpoint k)) false e2 ;; Ok (e3, g1)
          else
            let more := Qltb moved2 speed in
            let e3 := if (more && (1 <? s_log_agent S)%Z)%bool
                      then up_agent ai (up_a_locations_visited (fun l => l ++ [ki])) e2
                      else e2 in
            e4 <- handle_travel S ai (PLoc (k_endpoint k)) false e3 ;;
            ep <- loc_of e4 (k_endpoint k) ;;
            let e5 := if ((0 <? s_log_camp S)%Z && l_camp ep)%bool
                      then up_loc (k_endpoint k)
                             (up_l_incoming_journey_lengths
                                (fun l => l ++ [a_timesteps_since_departure a])) e4
                      else e4 in
            if more then
              ratio <- (if s_AvoidShortStints S
                        then fdiv moved2 (s_MaxMoveSpeed S) else Ok 0) ;;
              let force := (s_AvoidShortStints S &&
                            Qltb ((a_recent_travel_distance a + ratio) / 2) (1 # 2))%bool in
              '(e6, g2) <- person_evolve S o time force ai e5 g1 ;;
              rec e6 g2
            else Ok (e5, g1)
        else Ok (e1, g1)
    | _ => Err AttributeError
    end.

Lemma finish_round f S o t ai e g :
  finish_travel (Datatypes.S f) S o t ai e g = round (finish_travel f S o t ai) S o t ai e g.
Proof. reflexivity. Qed.

Local Open Scope string_scope.

Lemma finish_two f S o t ai e g :
  finish_travel (Datatypes.S (Datatypes.S f)) S o t ai e g =
  round (round (finish_travel f S o t ai) S o t ai) S o t ai e g.
Proof. reflexivity. Qed.

(** Two conflict zones at distance zero and one agent *)
Definition zero_history : history := map (pair default_settings)
  [ OAddLocation nA "r" 0 0 (Some "conflict_zone") 1 (-1) 100 false "X" (Some []);
    OAddLocation nB "r" 1 0 (Some "conflict_zone") 1 (-1) 50 false "X" (Some []);
    OLinkUp "A" "B" 0 false None; OAddAgent 0 [] ].
Definition zero_run : res (eco * rng) := run ex_oracle zero_history empty_eco (rng_const (1 # 4)).

(** After the decisions of the first time step *)
Definition zero_set_out : res (eco * rng) :=
  '(e, g) <- zero_run ;;
  e0 <- refresh_spawn_weights default_settings e ;;
  '(e1, g1) <- update_scores default_settings ex_oracle e0 g ;;
  evolve_agents default_settings ex_oracle e1 g1.
Definition zero_eco : eco := end_eco zero_set_out.

(** After some rounds *)
Definition fam (q : positive) (c0 c1 : Z) : eco :=
  up_agent 0 (up_a_places_travelled (fun _ => Zpos (xI q)))
    (up_link 0 (up_k_cumNumAgents (fun _ => c0)) (up_link 1 (up_k_cumNumAgents (fun _ => c1)) zero_eco)).
Definition drawn (n : nat) : rng := Rng (fun _ => 1 # 4) (fun _ => 1 # 4) (fun _ => 0%nat) n 0 0.

(** There and back *)
Lemma two_rounds rec q c0 c1 n :
  round (round rec default_settings ex_oracle 0 0) default_settings ex_oracle 0 0 (fam q c0 c1) (drawn n) =
  rec (fam (Pos.succ q) (c0 + 1) (c1 + 1)) (drawn (6 + n)).
Proof. vm_compute. reflexivity. Qed.

Lemma fam_travelling f q c0 c1 n : (f < 2)%nat ->
  finish_travel f default_settings ex_oracle 0 0 (fam q c0 c1) (drawn n) = Err OutOfFuel.
Proof.
  intro H. destruct f as [|[|f]]; [vm_compute; reflexivity| |lia].
  rewrite finish_round. vm_compute. reflexivity.
Qed.

Lemma fam_diverges f : forall q c0 c1 n,
  finish_travel f default_settings ex_oracle 0 0 (fam q c0 c1) (drawn n) = Err OutOfFuel.
Proof.
  induction f as [f IH] using (well_founded_induction Wf_nat.lt_wf). intros q c0 c1 n.
  destruct (Nat.lt_ge_cases f 2) as [Lt|Ge]; [now apply fam_travelling|].
  destruct f as [|[|f]]; [lia..|]. rewrite finish_two.
  rewrite two_rounds. apply IH. lia.
Qed.

Lemma start_diverges f :
  finish_travel f default_settings ex_oracle 0 0 zero_eco (drawn 2) = Err OutOfFuel.
Proof.
  destruct f as [|[|f]]; [vm_compute; reflexivity| |].
  - rewrite finish_round. vm_compute. reflexivity.
  - rewrite finish_two.
    transitivity (finish_travel f default_settings ex_oracle 0 0 (fam 1 2 1) (drawn 8)); [|apply fam_diverges].
    generalize (finish_travel f default_settings ex_oracle 0 0). intro rec. vm_compute. reflexivity.
Qed.

Lemma zero_run_ok : is_ok zero_run = true.
Proof. vm_compute. reflexivity. Qed.

Local Opaque run.

Lemma zero_reachable : reachable ex_oracle (end_eco zero_run) (end_rng zero_run).
Proof. exact (ex_intro _ zero_history (ex_intro _ (rng_const (1 # 4)) (end_ok zero_run zero_run_ok))). Qed.

Lemma zero_rng_ok : rng_ok (end_rng zero_run).
Proof. vm_compute. repeat split; intros; try discriminate; reflexivity. Qed.

Lemma zero_pre :
  (e0 <- refresh_spawn_weights default_settings (end_eco zero_run) ;;
   '(e1, g1) <- update_scores default_settings ex_oracle e0 (end_rng zero_run) ;;
   evolve_agents default_settings ex_oracle e1 g1) = Ok (zero_eco, drawn 2).
Proof. vm_compute. reflexivity. Qed.

Lemma zero_first : agent_of zero_eco 0 = Ok (Agent (PLink 0) 0 0 1 0 0 true 0 [] (Some []) 0 []).
Proof. vm_compute. reflexivity. Qed.

Lemma zero_agents : seq 0 (List.length (e_agents zero_eco)) = [0%nat].
Proof. vm_compute. reflexivity. Qed.

Lemma zero_time : e_time zero_eco = 0%Z.
Proof. vm_compute. reflexivity. Qed.

Local Opaque zero_run zero_eco drawn.

Lemma evolve_parts fuel S o e g e3 g3 :
  (e0 <- refresh_spawn_weights S e ;;
   '(e1, g1) <- update_scores S o e0 g ;;
   evolve_agents S o e1 g1) = Ok (e3, g3) ->
  finish_agents fuel S o e3 g3 = Err OutOfFuel ->
  evolve fuel S o e g = Err OutOfFuel.
Proof.
  intros Pre Fin. unfold evolve.
  destruct (refresh_spawn_weights S e) as [e0|x]; [cbn [bind] in *|discriminate].
  destruct (update_scores S o e0 g) as [[e1 g1]|x]; [cbn [bind] in *|discriminate].
  rewrite Pre. cbn [bind]. rewrite Fin. reflexivity.
Qed.

Theorem zero_length_diverges : exists o S e g, reachable o e g /\ rng_ok g /\
  forall fuel, evolve fuel S o e g = Err OutOfFuel.
Proof.
  exists ex_oracle, default_settings, (end_eco zero_run), (end_rng zero_run).
  split; [exact zero_reachable|split; [exact zero_rng_ok|]].
  intro fuel. apply (evolve_parts fuel _ _ _ _ _ _ zero_pre).
  unfold finish_agents. rewrite zero_agents. cbn [foldM]. rewrite zero_first. cbn [bind a_location].
  rewrite zero_time, start_diverges. reflexivity.
Qed.
