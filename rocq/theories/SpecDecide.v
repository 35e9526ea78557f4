(** * SpecDecide: what an agent in a location can decide, specified without the code *)

From Verif Require Import Base State Moving Crawling Scoring Flee Api SpecHistory SpecRoutes.
Local Open Scope Q_scope.

(** [plan] is the plan the agent follows when it decides to move: the stops that remain of
    its present plan or, if none remain, a newly selected route ([None] if there is no
    route at all). *)
Definition plan_used (S : settings) (o : oracle) (e : eco) (a : agent) (l : location)
    (time : Z) (g : rng) (plan : option (list rtok)) : Prop :=
  match a_route a with
  | Some [] => exists g', selectRoute S o e a l time g = Ok (plan, g')
  | present => plan = present
  end.

(** The first location of that name is a camp with a capacity multiplier below one half (more than half of
    what exceeds the buffer is taken). *)
Definition full_camp (S : settings) (e : eco) (name : string) : Prop :=
  exists i l c, nth_error (e_locations e) i = Some l /\ sval (l_name l) = name /\
    (forall j, (j < i)%nat -> name_at e j <> name) /\
    l_camp l = true /\ room S l c /\ c < 1 # 2.

(** Some open link of location [i] leads to a location of that name. *)
Definition leads_to (e : eco) (i : nat) (name : string) : Prop :=
  exists ki k, open_link e i ki k /\ name_at e (k_endpoint k) = name.

(** The agent stays and drops its plan. *)
Definition stays_put (a a' : agent) : Prop :=
  a_location a' = a_location a /\ a_travelling a' = false /\ a_route a' = Some [].

(** The agent sets out on link [ki] and keeps the plan [rest]. *)
Definition sets_out (a a' : agent) (ki : nat) (rest : list rtok) : Prop :=
  a_location a' = PLink ki /\ a_travelling a' = true /\ a_route a' = Some rest /\
  a_distance_travelled_on_link a' = 0.

(** [asked o e g]: a state in which an agent may be asked to decide: one reached by API
    calls, or one met during a time step, after the weights and scores have been updated,
    other agents have decided, agents have arrived in locations and their records (not
    their place, home or travelling flag) and the arrival lists of camps were updated. *)
Inductive asked (o : oracle) : eco -> rng -> Prop :=
| asked_between e g : reachable o e g -> asked o e g
| asked_weights S e g e' : asked o e g -> refresh_spawn_weights S e = Ok e' -> asked o e' g
| asked_scores S e g e' g' : asked o e g -> update_scores S o e g = Ok (e', g') -> asked o e' g'
| asked_decided S t f ai e g e' g' : asked o e g -> person_evolve S o t f ai e g = Ok (e', g') -> asked o e' g'
| asked_arrived S ai i e g e' : asked o e g -> handle_travel S ai (PLoc i) false e = Ok e' -> asked o e' g
| asked_noted ai f e g : asked o e g ->
    (forall a, a_location (f a) = a_location a /\ a_home_location (f a) = a_home_location a /\
               a_travelling (f a) = a_travelling a) -> asked o (up_agent ai f e) g
| asked_logged i f e g : asked o e g -> asked o (up_loc i (up_l_incoming_journey_lengths f) e) g
| asked_drawn e g : asked o e g -> asked o e (snd (rng_u g)).
