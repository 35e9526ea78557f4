(** * SpecWeights: how attractive a place is and how likely people leave, specified without the code *)

From Verif Require Import Base State SpecAgents SpecRoutes SpecZones SpecReports.
Local Open Scope string_scope.
Local Open Scope list_scope.
Local Open Scope Q_scope.

(** ** Vocabulary *)

(** Entry number [i] of a list; negative numbers count from its end. *)
Definition item {A : Type} (l : list A) (i : Z) : option A :=
  let n := Z.of_nat (List.length l) in
  if (0 <=? i)%Z then nth_error l (Z.to_nat i)
  else if (- n <=? i)%Z then nth_error l (Z.to_nat (n + i)) else None.
Definition table_item (t : option (list Q)) (i : Z) : option Q :=
  match t with Some l => item l i | None => None end.

(** The attribute is a number. *)
Definition numeric (v : pyval) (x : Q) : Prop := (exists z, v = VInt z /\ x = inject_Z z) \/ v = VFloat x.

(** [r] is [x] to the power [y], where floats have one. *)
Definition powered (o : oracle) (x y r : Q) : Prop :=
  ~ (x == 0 /\ y < 0) /\ ~ (x < 0 /\ is_int y = false) /\ r = o_pow o x y.

(** ** Floods *)

Definition flood_level (d : dict) : pyval := match dict_get "flood_level" d with Some v => v | None => VInt 0 end.
(** The entry of table [t] for the present flood level; [dry] if there is no flood *)
Definition present (t : option (list Q)) (d : dict) (dry r : Q) : Prop :=
  exists x, numeric (flood_level d) x /\
    ((x <= 0 /\ r = dry) \/ (0 < x /\ exists z, flood_level d = VInt z /\ table_item t z = Some r)).

(** What one day of the forecast adds *)
Definition day_weight (S : settings) (levels : list Z) (day : Z) (w : Q) : Prop :=
  exists n, item levels day = Some n /\
    (((n <= 0)%Z /\ w = 0) \/
     ((0 < n)%Z /\ exists a b, table_item (s_FloodLocWeights S) n = Some a /\ table_item (s_FloodForecasterWeights S) day = Some b /\ w = a * b)).
(** The sum over the days of the forecast *)
Definition expected (S : settings) (d : dict) (day ts last : Z) (s : Q) : Prop :=
  exists levels ws, dict_get "forecast_flood_levels" d = Some (VList levels) /\
    Forall2 (day_weight S levels) (forecast_days day ts last) ws /\ s == sumQ ws.
(** How much the agent minds the forecast *)
Definition awareness (S : settings) (a : agent) (w : Q) : Prop :=
  exists v i, dict_get "floodawareness" (a_attributes a) = Some v /\ py_int v = Ok i /\ table_item (s_FloodAwarenessWeights S) i = Some w.

(** ** Attractiveness of a place for an agent *)

(** Children mind the safety of the place more, boys above 14 not at all. *)
Definition of_age (age base : Q) : Q := if Qltb age 19 then base * base else base.
Definition safety (S : settings) (a : agent) (base r : Q) : Prop :=
  if s_ChildrenAvoidHazards S then
    exists v age, dict_get "age" (a_attributes a) = Some v /\ numeric v age /\
      if s_BoysTakeRisk S then
        exists g, dict_get "gender" (a_attributes a) = Some g /\
          ((g = VStr "male" /\ 14 < age -> r = 1) /\ (~ (g = VStr "male" /\ 14 < age) -> r = of_age age base))
      else r = of_age age base
  else r = base.

(** The distance from where the agent is now *)
Definition nearness (S : settings) (o : oracle) (e : eco) (a : agent) (ep : location) (r : Q) : Prop :=
  if s_StayCloseToHome S then
    exists i here p, a_location a = PLoc i /\ nth_error (e_locations e) i = Some here /\
      powered o (Qmaxb 1 (o_dist o (l_x ep, l_y ep) (l_x here, l_y here))) (s_HomeDistancePower S) p /\ ~ p == 0 /\ r == 1 / p
  else r = 1.

Definition flooding (S : settings) (e : eco) (a : agent) (ep : location) (day : Z) (r : Q) : Prop :=
  if s_FloodRulesEnabled S then
    exists d p, attributes_of e ep d /\ present (s_FloodLocWeights S) d 1 p /\
      match window S day with
      | None => r == p
      | Some (ts, last) => exists s w, expected S d day ts last s /\ awareness S a w /\ r == p * (s * (s / inject_Z ts) * w)
      end
  else r = 1.

Definition crowd (S : settings) (o : oracle) (ep : location) (r : Q) : Prop :=
  if (s_UsePopForLocWeight S && negb (l_camp ep))%bool
  then powered o (Qminb 1 (inject_Z (l_pop ep))) (s_PopPowerForLocWeight S) r
  else r = 1.

(** No rule on ethnic groups applies to the place. *)
Definition unmatched (S : settings) (ep : location) : Prop :=
  (if l_camp ep then s_MatchCampEthnicity S else if Qltb 0 (l_conflict ep) then s_MatchConflictEthnicity S else s_MatchTownEthnicity S) = false.

Definition attraction (S : settings) (o : oracle) (e : eco) (a : agent) (ep : location) (day : Z) (r : Q) : Prop :=
  exists s n f c, safety S a (l_score1 ep) s /\ nearness S o e a ep n /\ flooding S e a ep day f /\ unmatched S ep /\
    crowd S o ep c /\ r == s * n * f * c.

(** [stop_weight S o e a day i d w]: [w] is the weight of ending in location [i] after [d]
    kilometres: (softening + attraction) / (softening + d)^power, times the capacity
    multiplier, to a power. *)
Definition stop_weight (S : settings) (o : oracle) (e : eco) (a : agent) (day : Z) (i : nat) (d w : Q) : Prop :=
  exists l score x p c,
    nth_error (e_locations e) i = Some l /\ attraction S o e a l day score /\
    x == s_DistanceSoftening S + d /\ powered o x (s_DistancePower S) p /\ ~ p == 0 /\ room S l c /\
    exists y, y == (s_WeightSoftening S + score) / p * c /\ powered o y (s_WeightPower S) w.

(** ** Chance to leave *)

Definition leaves_with (S : settings) (o : oracle) (e : eco) (a : agent) (l : location) (forced : bool) (day : Z) (r : Q) : Prop :=
  if (l_town l && forced)%bool then r == 1
  else exists p, ~ s_MovechancePopBase S == 0 /\
    powered o (inject_Z (Z.max (l_pop l) (l_capacity l)) / s_MovechancePopBase S) (s_MovechancePopScaleFactor S) p /\
    if s_FloodRulesEnabled S then
      exists d m, attributes_of e l d /\ present (s_FloodMovechances S) d (l_movechance l * p) m /\
        match window S day with
        | None => r == m
        | Some (ts, last) => exists s w, expected S d day ts last s /\ awareness S a w /\ r == m * (s / inject_Z ts * w)
        end
    else r == l_movechance l * p.
