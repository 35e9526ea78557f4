(** * SpecSpawn: vocabulary for the properties of spawning *)

From Verif Require Import Base State Flee DataTable Spawning SpecAgents.
Local Open Scope Q_scope.

(** Number of agents of the list [new] that are in location [i] *)
Definition arrivals (i : nat) (new : list agent) : Z :=
  Z.of_nat (count_occ Nat.eq_dec
    (flat_map (fun a => match a_location a with PLoc j => [j] | _ => [] end) new) i).

(** A location without head count, population and number of spawned agents *)
Definition uncounted (l : location) : location :=
  up_l_numAgents (fun _ => 0%Z) (up_l_pop (fun _ => 0%Z) (up_l_numAgentsSpawned (fun _ => 0%Z) l)).

(** [e'] is [e] with the agents [new] added: agents, head counts, and with [take] the
    populations, are updated accordingly; nothing else differs. *)
Definition grown (take : bool) (new : list agent) (e e' : eco) : Prop :=
  e' = up_e_locations (fun _ => e_locations e') (up_e_agents (fun ags => ags ++ new)%list e) /\
  List.length (e_locations e') = List.length (e_locations e) /\
  forall i l, nth_error (e_locations e) i = Some l -> exists l', nth_error (e_locations e') i = Some l' /\
    uncounted l' = uncounted l /\
    l_numAgents l' = (l_numAgents l + arrivals i new)%Z /\
    l_numAgentsSpawned l' = (if take then l_numAgentsSpawned l + arrivals i new else l_numAgentsSpawned l)%Z /\
    l_pop l' = (if take then if 0 <? l_pop l then Z.max 0 (l_pop l - arrivals i new) else l_pop l else l_pop l)%Z.

(** The weights of the values of an attribute for a location: its own column, else the
    column "Default" *)
Definition weights_for (t : demo_table) (name : string) (w : list Q) : Prop :=
  dict_get name (t_columns t) = Some w \/
  dict_get name (t_columns t) = None /\ dict_get "Default"%string (t_columns t) = Some w.

(** The attributes fit the demographics of the location: one value for each table, each
    one of the values of the table with a positive weight. *)
Definition fits (dm : demographics) (name : string) (attrs : dict) : Prop :=
  Forall2 (fun kt kv => fst kv = fst kt /\
    exists w n q, weights_for (snd kt) name w /\ nth_error (t_values (snd kt)) n = Some (snd kv) /\
      nth_error w n = Some q /\ 0 < q) dm attrs.

(** The agents [new] are fresh and are in the locations [homes], in that order, with
    attributes that fit. *)
Definition fresh_in (dm : demographics) (e : eco) (homes : list nat) (new : list agent) : Prop :=
  Forall2 (fun i a => exists l attrs, nth_error (e_locations e) i = Some l /\ a = newcomer i attrs /\
             fits dm (sval (l_name l)) attrs) homes new.

(** Number of agents a conflict location sends on a day *)
Definition daily_amount (S : settings) (l : location) : Z :=
  if Qltb 0 (l_conflict l) then
    if String.eqb (s_conflict_spawn_mode S) "constant" then Qtrunc (s_displaced_per_conflict_day S * l_conflict l)
    else if String.eqb (s_conflict_spawn_mode S) "pop_ratio"
    then Qtrunc (s_displaced_per_conflict_day S * inject_Z (l_pop l) * l_conflict l) else 0%Z
  else 0%Z.
Definition sumZ (l : list Z) : Z := fold_right Z.add 0%Z l.

(** The number of people registered for a place on day 0: what the data say, and none for
    places without data. *)
Definition registered (d : dtable) (name : string) (z : Z) : Prop :=
  (In name (d_header d) /\ get_field d name 0 true = Ok z) \/ (~ In name (d_header d) /\ z = 0%Z).

(** Days of data-driven spawning: the differences in the data, the numbers of agents and
    the debt carried over.  Between the days anything may happen. *)
Inductive spawn_days : spawn_state -> list Z -> list Z -> spawn_state -> Prop :=
| no_days sp : spawn_days sp [] [] sp
| one_day sp0 diffs ns sp diff n sp' S dm t d e g d1 d' e' g' :
    spawn_days sp0 diffs ns sp ->
    s_conflict_driven_spawning S = false -> s_flood_driven_spawning S = false ->
    (s_InsertDayZero S = false \/ t <> 0%Z) ->
    get_daily_difference d t true (s_sum_from_camps S) = Ok (diff, d1) ->
    spawn_daily_displaced S dm t sp d e g = Ok (n, sp', d', e', g') ->
    spawn_days sp0 (diffs ++ [diff]) (ns ++ [n]) sp'.
