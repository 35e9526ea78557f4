(** * SpecReports: location scores and lines of the agent log, specified without the code *)

From Verif Require Import Base State SpecAgents SpecRoutes SpecZones.
Local Open Scope Q_scope.

(** ** Scores *)

(** The weight [w] if [b] holds, no change otherwise *)
Definition factor (b : bool) (w : Q) : Q := if b then w else 1.

(** Conflict zones: the conflict weight to the power decay times intensity *)
Definition conflict_factor (S : settings) (o : oracle) (day : Z) (l : location) : Q :=
  if Qltb 0 (l_conflict l)
  then o_pow o (s_ConflictWeight S) (decay_after S (day - l_time_of_conflict l) * l_conflict l)
  else 1.

(** Entry number [i] of a table of flood weights *)
Definition entry (t : option (list Q)) (i : Z) : Q :=
  match t with Some l => nth (Z.to_nat i) l 0 | None => 0 end.
(** It exists. *)
Definition has_entry (t : option (list Q)) (i : Z) : Prop :=
  match t with Some l => (0 <= i < Z.of_nat (List.length l))%Z | None => False end.

(** The days looked at by a forecast made on [day]: the next [ts] days up to day [last];
    only day [last] if it has come. *)
Definition forecast_days (day ts last : Z) : list Z :=
  if (day <? last)%Z
  then map (fun k => (day + Z.of_nat k)%Z) (seq 1 (Z.to_nat (Z.min ts (last - day))))
  else [last].

(** The factor of the forecast: with s the sum of level weight times day weight over the
    forecast days, s times s over the number of days. *)
Definition forecast_factor (S : settings) (level day ts last : Z) : Q :=
  let s := if (0 <? level)%Z
           then sumQ (map (fun d => entry (s_FloodLocWeights S) level * entry (s_FloodForecasterWeights S) d)
                          (forecast_days day ts last))
           else 0 in
  s * (s / inject_Z ts).

(** The length and last day of the forecast, if the forecaster is on and set up for [day] *)
Definition window (S : settings) (day : Z) : option (Z * Z) :=
  match s_FloodForecaster S, s_FloodForecasterTimescale S, s_FloodForecasterEndTime S with
  | true, Some ts, Some last => if ((1 <? ts) && (day <=? last))%Z%bool then Some (ts, last) else None
  | _, _, _ => None
  end.

Definition forecast_of (d : dict) : Z :=
  match dict_get "forecast_flood_level" d with Some (VInt f) => f | _ => 0%Z end.

(** Flood zones with a flood level: the weight of that level, times the forecast factor *)
Definition flood_factor (S : settings) (day : Z) (l : location) (d : dict) : Q :=
  if l_flood_zone l then
    match dict_get "flood_level" d with
    | Some (VInt level) => entry (s_FloodLocWeights S) level *
        match window S day with
        | Some (ts, last) => forecast_factor S (forecast_of d) day ts last
        | None => 1
        end
    | _ => 1
    end
  else 1.

(** The score of a location with attributes [d] *)
Definition score_of (S : settings) (o : oracle) (day : Z) (l : location) (d : dict) : Q :=
  factor (l_foreign l) (s_ForeignWeight S) * factor (l_camp l || l_idpcamp l) (s_CampWeight S) *
  conflict_factor S o day l * flood_factor S day l d.

(** The attributes of a location *)
Definition attributes_of (e : eco) (l : location) (d : dict) : Prop :=
  nth_error (e_dicts e) (l_attributes l) = Some d.

(** Flood levels are numbers within the tables of weights. *)
Definition flood_ok (S : settings) (day : Z) (l : location) (d : dict) : Prop :=
  l_flood_zone l = true -> forall v, dict_get "flood_level" d = Some v ->
    (exists level, v = VInt level /\ has_entry (s_FloodLocWeights S) level) /\
    forall ts last, window S day = Some (ts, last) ->
      forall f, dict_get "forecast_flood_level" d = Some f -> exists level, f = VInt level /\
        ((0 < level)%Z -> has_entry (s_FloodLocWeights S) level /\
          forall x, In x (forecast_days day ts last) -> has_entry (s_FloodForecasterWeights S) x).

Definition floods_ok (S : settings) (e : eco) : Prop :=
  forall l d, In l (e_locations e) -> attributes_of e l d -> flood_ok S (e_time e) l d.

(** [l'] is [l] with other scores and stored routes. *)
Definition rescored (l l' : location) : Prop :=
  exists s0 s1 r, l' = up_l_routes (fun _ => r) (up_l_score1 (fun _ => s1) (up_l_score0 (fun _ => s0) l)).

(** ** The agent log *)

(** [stands e p name x y]: the name and coordinates of the place [p].  A link is called
    "L:start:end" and drawn half way.  A deactivated agent is where it was last. *)
Definition stands (e : eco) (p : pos) (name : string) (x y : Q) : Prop :=
  match p with
  | PLoc i | PGone i => exists l, nth_error (e_locations e) i = Some l /\
      name = sval (l_name l) /\ x == l_x l /\ y == l_y l
  | PLink ki => exists k s t, nth_error (e_links e) ki = Some k /\
      nth_error (e_locations e) (k_startpoint k) = Some s /\ nth_error (e_locations e) (k_endpoint k) = Some t /\
      name = ("L:" ++ sval (l_name s) ++ ":" ++ sval (l_name t))%string /\
      x == (l_x s + l_x t) / 2 /\ y == (l_y s + l_y t) / 2
  end.

(** [line e day hop n a p r]: [r] is a line of [day] about agent number [n], [a], at [p]. *)
Definition line (e : eco) (day hop : Z) (n : nat) (a : agent) (p : pos) (r : agent_row) : Prop :=
  ar_time r = day /\ ar_hop r = hop /\ ar_agent r = n /\ ar_home r = name_at e (a_home_location a) /\
  stands e p (ar_loc r) (ar_x r) (ar_y r) /\ ar_travelling r = a_travelling a /\
  ar_distance_travelled r = a_distance_travelled a /\ ar_places r = a_places_travelled a /\
  ar_attributes r = map snd (a_attributes a).

(** Extra lines for the links passed in the step: numbered 1, 2, ... with level 3, all 0 with
    level 2 *)
Fixpoint passed (e : eco) (day : Z) (numbered : bool) (hop : Z) (n : nat) (a : agent) (ks : list nat)
    (rs : list agent_row) : Prop :=
  match ks, rs with
  | [], [] => True
  | ki :: ks, r :: rs => line e day (if numbered then hop else 0%Z) n a (PLink ki) r /\
      passed e day numbered (hop + 1) n a ks rs
  | _, _ => False
  end.

(** [block e day level n a rs]: [rs] are the lines about one active agent. *)
Definition block (e : eco) (day level : Z) (n : nat) (a : agent) (rs : list agent_row) : Prop :=
  exists r hops, rs = r :: hops /\ line e day 0 n a (a_location a) r /\
    passed e day (2 <? level)%Z 1 n a (if (1 <? level)%Z then a_locations_visited a else []) hops.
