(** * SpecRun: vocabulary for the properties of the main program and of its error measures *)

From Coq Require Import Qabs.
From Verif Require Import Base State Flee DataTable Spawning InputGeography Dates DataFiles RunScript Api SpecAgents SpecNetwork SpecDates SpecData.
Local Open Scope Q_scope.

(** [y] is [x] rounded to four digits. *)
Definition rounded4 (x y : Q) : Prop := Qabs (x - y) <= 1 # 20000 /\ exists n, y == inject_Z n / 10000.

(** Sum of the distances of two series, number by number *)
Fixpoint sum_abs (a b : list Q) : Q :=
  match a, b with x :: a', y :: b' => Qabs (x - y) + sum_abs a' b' | _, _ => 0 end.

(** The error shown for a camp: the relative difference, 0 without people in the data *)
Definition error_shown (sim data : Z) (err : Q) : Prop :=
  (data <= 0)%Z /\ err == 0 \/ (0 < data)%Z /\ rounded4 (Qabs (inject_Z (sim - data) / inject_Z data)) err.

(** Numbers of new agents come from the registered totals. *)
Definition from_data (S : settings) : Prop := s_conflict_driven_spawning S = false /\ s_flood_driven_spawning S = false.

(** The number shown for a camp from the data: that of the day; with empty camps on day 0
    what has been added since day 0, but only if new agents come from the data. *)
Definition data_shown (S : settings) (d : dtable) (camp : string) (t z : Z) : Prop :=
  exists v, get_field d camp t true = Ok v /\
    ((from_data S /\ s_EmptyCampsOnDay0 S = true /\ exists v0, get_field d camp 0 true = Ok v0 /\ z = (v - v0)%Z) \/
     (~ (from_data S /\ s_EmptyCampsOnDay0 S = true) /\ z = v)).

(** The agent is in an IDP camp, or was there when it was deactivated. *)
Definition in_idp_camp (e : eco) (a : agent) : bool :=
  match a_location a with
  | PLoc i | PGone i => match nth_error (e_locations e) i with Some l => l_idpcamp l | None => false end
  | PLink _ => false
  end.

(** [simulated t sp d e g]: the state after [t] days of the simulation.  A day is
    AddNewConflictZones, spawn_daily_displaced, refresh_spawn_weights,
    enact_border_closures, evolve. *)
Inductive simulated (fuel : nat) (S : settings) (o : oracle) (inp : run_input) (w : world)
  : nat -> spawn_state -> dtable -> eco -> rng -> Prop :=
| At_start : simulated fuel S o inp w 0 (Spawn 0 0) (w_data w) (w_eco w) (w_rng w)
| One_more t sp d e g e1 g1 n sp' d' e2 g2 e' g' :
    simulated fuel S o inp w t sp d e g ->
    step o S (OAddNewConflictZones (in_conflict_file inp) (w_geo w) (Z.of_nat t)) e g = Ok (e1, g1) ->
    spawn_daily_displaced S (in_dm inp) (Z.of_nat t) sp d e1 g1 = Ok (n, sp', d', e2, g2) ->
    run o [(S, ORefreshSpawnWeights); (S, OEnactBorderClosures fuel (Z.of_nat t) true); (S, OEvolve fuel)] e2 g2 = Ok (e', g') ->
    simulated fuel S o inp w (Datatypes.S t) sp' d' e' g'.

(** The line printed for day [t], when the state is [e] and [raw] people are registered,
    [debt] of them to come. *)
Record line_of (S : settings) (inp : run_input) (w : world) (t : nat) (raw debt : Z) (e : eco) (r : report) : Prop := {
  lo_day : r_day r = Z.of_nat t;
  lo_date : exists d0 d, civil d0 /\ written (w_start w) d0 /\ civil d /\ days_apart d0 (Z.of_nat t) d /\ written (r_date r) d;
  lo_camps : Forall2 (fun camp (x : Z * Z * Q) => let '(sim, data, err) := x in
      (exists i, called e camp i /\ sim = how_many (fun a => in_location i a || left_from i a)%bool (e_agents e)) /\
      (camp <> "total"%string -> data_shown S (w_data w) camp (Z.of_nat t) data) /\
      error_shown sim data err) (w_camps w) (r_camps r);
  lo_total : r_total r = Z.of_nat (List.length (e_agents e));
  lo_in_camps : r_in_camps r = sumZ (map (fun x => fst (fst x)) (r_camps r));
  lo_idps : r_idps r = if (0 <? in_idp_totals inp)%Z then Some (how_many (in_idp_camp e) (e_agents e)) else None;
  lo_raw : (0 < raw)%Z -> r_raw r = raw /\ r_debt r = debt /\ r_data r = sumZ (map (fun x => snd (fst x)) (r_camps r)) /\
    r_error r == inject_Z (sumZ (map (fun x => Z.abs (fst (fst x) - snd (fst x))) (r_camps r))) / inject_Z raw;
  lo_none : (raw <= 0)%Z -> r_raw r = 0%Z /\ r_debt r = 0%Z /\ r_data r = 0%Z /\ r_error r = 0 }.

(** What is to be spawned up to day [t] by the data: the growth of the registered total
    since day 0, and the difference that get_daily_difference gives for day 0 unless that
    many people are inserted before the start. *)
Definition to_spawn (S : settings) (d : dtable) (t z : Z) : Prop :=
  exists first d1 v v0, get_daily_difference d 0 true (s_sum_from_camps S) = Ok (first, d1) /\
    total_on d t true (s_sum_from_camps S) = Ok v /\ total_on d 0 true (s_sum_from_camps S) = Ok v0 /\
    z = ((if s_InsertDayZero S then 0 else first) + (v - v0))%Z.

(** The most that was to be spawned so far, at least 0 *)
Definition highest (S : settings) (d : dtable) (t m : Z) : Prop :=
  (0 <= m)%Z /\ (forall s z, (0 <= s <= t)%Z -> to_spawn S d s z -> (z <= m)%Z) /\
  (m = 0%Z \/ exists s, (0 <= s <= t)%Z /\ to_spawn S d s m).
