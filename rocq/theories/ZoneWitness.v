(** * ZoneWitness: concrete networks for the properties of camps, conflict zones and
    spawning, and counterexamples *)

From Coq Require Import Lia.
From Verif Require Import Base State Moving Crawling Flee DataTable Spawning InputGeography Api SpecAgents SpecHistory SpecRoutes
  SpecClosures SpecZones Lemmas Inv Defaults Streams ScoreFrames Streams  ExampleRun ClosureWitness ZoneProps.
Local Open Scope string_scope.
Local Opaque run.

(** ** Facts about the example network *)

Lemma first0 : exists l, first_named (then_eco []) "A" 0 l.
Proof.
  destruct (nth_error (e_locations (then_eco [])) 0) as [l|] eqn:E; [|vm_compute in E; discriminate E].
  exists l. split; [exact E|]. split; [vm_compute in E; injection E as <-; reflexivity|]. intros; lia.
Qed.

Lemma ex_draws_ok : rng_ok ex_draws.
Proof. split; cbn [g_u g_nu ex_draws]; intro n; destruct (Nat.even n); split; first [discriminate | reflexivity]. Qed.
Lemma then_rng_ok h : is_ok (then_ h) = true -> rng_ok (then_rng h).
Proof.
  intro H. apply (streams_ok ex_draws); [|exact ex_draws_ok]. apply (run_streams _ _ _ _ _ _ (end_ok (then_ h) H)).
Qed.

(** ** Counterexamples *)

(** A name that nobody has: the first location becomes a camp. *)
Lemma camp_unknown : exists e g S e', reachable ex_oracle e g /\ distinct_names e /\
  (forall l, In l (e_locations e) -> lname l <> "Z") /\
  open_camp S (PS "Z" 9) false e = Ok e' /\
  map l_camp (e_locations e) = [false; false; true] /\ map l_camp (e_locations e') = [true; false; true] /\
  map l_conflict (e_locations e) = [1; -1; -1]%Q /\ map l_conflict (e_locations e') = [-1; -1; -1]%Q.
Proof.
  exists (then_eco []), (then_rng []), ex_S, (end_eco (e <- open_camp ex_S (PS "Z" 9) false (then_eco []) ;; Ok (e, then_rng []))).
  split; [exact reach0|]. split; [exact distinct0|]. split; [apply no_name_ok; vm_compute; reflexivity|].
  vm_compute. repeat split; reflexivity.
Qed.

(** Opening an ordinary camp where an IDP camp was keeps the IDP mark. *)
Lemma camp_keeps_idp : exists e g S e', reachable ex_oracle e g /\ distinct_names e /\
  open_camp S nB false e = Ok e' /\ map l_idpcamp (e_locations e') = [false; true; false].
Proof.
  exists (then_eco [OOpenCamp nB true]), (then_rng [OOpenCamp nB true]), ex_S,
    (end_eco (e <- open_camp ex_S nB false (then_eco [OOpenCamp nB true]) ;; Ok (e, then_rng []))).
  split; [apply then_reachable; vm_compute; reflexivity|]. split; [apply distinct_ok; vm_compute; reflexivity|].
  vm_compute. repeat split; reflexivity.
Qed.

(** Without [change_movechance] no conflict starts. *)
Lemma zone_without_change : exists e g S e', reachable ex_oracle e g /\ distinct_names e /\
  add_conflict_zone S "B" 1 false e = Ok e' /\
  map l_conflict (e_locations e') = [1; -1; -1]%Q /\ map l_town (e_locations e') = [false; true; false].
Proof.
  exists (then_eco []), (then_rng []), ex_S, (end_eco (e <- add_conflict_zone ex_S "B" 1 false (then_eco []) ;; Ok (e, then_rng []))).
  split; [exact reach0|]. split; [exact distinct0|]. vm_compute. repeat split; reflexivity.
Qed.

(** Ending the conflict in a camp makes it a camp and a town. *)
Lemma zone_removed_camp : exists e g S e', reachable ex_oracle e g /\ distinct_names e /\
  remove_conflict_zone S "C" true e = Ok e' /\
  map l_camp (e_locations e') = [false; false; true] /\ map l_town (e_locations e') = [false; true; true].
Proof.
  exists (then_eco []), (then_rng []), ex_S, (end_eco (e <- remove_conflict_zone ex_S "C" true (then_eco []) ;; Ok (e, then_rng []))).
  split; [exact reach0|]. split; [exact distinct0|]. vm_compute. repeat split; reflexivity.
Qed.

(** The locations picked need not be different. *)
Lemma pick_twice : exists e g g', reachable ex_oracle e g /\ rng_ok g /\ pick_spawn_locations 2 e g = Ok ([0; 0]%nat, g').
Proof.
  exists (then_eco []), (then_rng []), (end_rng ('(_, g1) <- pick_spawn_locations 2 (then_eco []) (then_rng []) ;; Ok (empty_eco, g1))).
  split; [exact reach0|]. split; [|vm_compute; reflexivity].
  exact (then_rng_ok [] eq_refl).
Qed.

(** Taking from the population: agents go on appearing when nobody is left. *)
Definition take_S : settings := up_s_TakeFromPopulation (fun _ => true) ex_S.
Definition two_left : history :=
  map (pair take_S) [OAddLocation nA "r" 0 0 (Some "conflict_zone") 1 (-1) 2 false "X" (Some []);
                     OAddAgent 0 []; OAddAgent 0 []; OAddAgent 0 []].
Definition two_left_end := end_eco (run ex_oracle two_left empty_eco ex_draws).
Lemma takes_too_many : exists e g, reachable ex_oracle e g /\
  map (fun l => (l_pop l, l_numAgentsSpawned l)) (e_locations e) = [(0, 3)]%Z.
Proof.
  exists two_left_end, (end_rng (run ex_oracle two_left empty_eco ex_draws)).
  split; [|vm_compute; reflexivity]. exists two_left, ex_draws. apply end_ok. vm_compute. reflexivity.
Qed.
