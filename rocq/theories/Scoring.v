(** * Scoring: flee/scoring.py and the conflict decay of flee/SimulationSettings.py *)

From Verif Require Import Base State Moving Crawling.
Local Open Scope Q_scope.

(** ** get_conflict_decay (flee/SimulationSettings.py 40-65)

    [int(t / interval)] is the integer quotient (truncating); the division is a float
    division in Python, exact here. *)
Definition get_conflict_decay (S : settings) (tsc : Z) : res Q :=
  match s_conflict_spawn_decay S with
  | None => Ok 1
  | Some l =>
      let n := Z.of_nat (List.length l) in
      if (n <? 1)%Z then Ok 1
      else if (s_conflict_spawn_decay_interval S =? 0)%Z then Err ZeroDivisionError
      else py_index l (Z.min (Z.quot tsc (s_conflict_spawn_decay_interval S)) (n - 1))
  end.

(** ** get_location_conflict_decay (flee/SimulationSettings.py 69-86) *)
Definition get_location_conflict_decay (S : settings) (time : Z) (l : location) : res Q :=
  get_conflict_decay S (time - l_time_of_conflict l).

(** ** updateLocationScore, score part (flee/scoring.py 31-124) *)

(** Lines 51-115: factor for a flood zone with attribute [flood_level]. *)
Definition flood_zone_factor (S : settings) (d : dict) (time : Z) (score : Q) : res Q :=
  match dict_get "flood_level" d with
  | None => Ok score
  | Some fl =>
      i <- py_as_index fl ;;
      w <- flood_table (s_FloodLocWeights S) i ;;
      let score1 := score * w in
      if s_FloodForecaster S then
        match forecast_active S time with
        | Some (ts, en) =>
            f <- forecast_loop S (fun _ => Ok (dict_get_default "forecast_flood_level" d (VInt 0)))
                   time en (days_ahead ts) 0 ;;
            f1 <- fdiv f (inject_Z ts) ;;
            Ok (score1 * (f * f1))
        | None => Ok score1
        end
      else Ok score1
  end.

Definition locationScore (S : settings) (o : oracle) (d : dict) (time : Z) (l : location)
  : res Q :=
  let s1 := if l_foreign l then 1 * s_ForeignWeight S else 1 in
  let s2 := if (l_camp l || l_idpcamp l)%bool then s1 * s_CampWeight S else s1 in
  s3 <- (if Qltb 0 (l_conflict l) then
           dec <- get_location_conflict_decay S time l ;;
           p <- fpow o (s_ConflictWeight S) (dec * l_conflict l) ;;
           Ok (s2 * p)
         else Ok s2) ;;
  if l_flood_zone l then flood_zone_factor S d time s3 else Ok s3.

(** ** updateLocationScore (flee/scoring.py 17-129) for location [i] *)
Definition updateLocationScore (S : settings) (o : oracle) (time : Z) (i : nat)
    (e : eco) (g : rng) : res (eco * rng) :=
  l <- loc_of e i ;;
  d <- loc_attrs e l ;;
  sc <- locationScore S o d time l ;;
  let e1 := up_loc i (fun l => up_l_score1 (fun _ => sc) (up_l_score0 (fun _ => 1) l)) e in
  if s_FixedRoutes S then generateLocationRoutes S o i e1 g else Ok (e1, g).
