(** * Moving: flee/moving.py *)

From Verif Require Import Base State.
Local Open Scope Q_scope.

(** ** Access to heap objects (plain references in Python) *)

Definition loc_of (e : eco) (i : nat) : res location :=
  of_option IndexError (nth_error (e_locations e) i).
Definition link_of (e : eco) (k : nat) : res link :=
  of_option IndexError (nth_error (e_links e) k).
Definition dict_of (e : eco) (d : nat) : res dict :=
  of_option IndexError (nth_error (e_dicts e) d).

Definition loc_attrs (e : eco) (l : location) : res dict := dict_of e (l_attributes l).
Definition link_attrs (e : eco) (k : link) : res dict := dict_of e (k_attributes k).

Definition lname (l : location) : string := sval (l_name l).

(** [link.endpoint] and its name *)
Definition endpoint_of (e : eco) (k : link) : res location := loc_of e (k_endpoint k).

(** Entry [i] of a flood table of the settings; [KeyError] if the table is absent. *)
Definition flood_table (t : option (list Q)) (i : Z) : res Q :=
  match t with
  | None => Err KeyError
  | Some l => py_index l i
  end.

(** flee/moving.py 91-117, 390-416; flee/scoring.py 76-108: the loop over the days
    of a flood forecast.  [level_at day] is the forecast level read for that day,
    [xs] the values of [x] still to visit. *)
Fixpoint forecast_loop (S : settings) (level_at : Z -> res pyval) (time endt : Z)
    (xs : list Z) (acc : Q) : res Q :=
  match xs with
  | [] => Ok acc
  | x :: xs' =>
      let day := if (endt <=? time + x)%Z then endt else (time + x)%Z in
      level <- level_at day ;;
      n <- py_num level ;;
      acc' <- (if Qltb 0 n then
                 i <- py_as_index level ;;
                 w <- flood_table (s_FloodLocWeights S) i ;;
                 f <- flood_table (s_FloodForecasterWeights S) day ;;
                 Ok (acc + w * f)
               else Ok acc) ;;
      if (day =? endt)%Z then Ok acc'
      else forecast_loop S level_at time endt xs' acc'
  end.

(** [range(1, ts + 1)] *)
Definition days_ahead (ts : Z) : list Z := map Z.of_nat (seq 1 (Z.to_nat ts)).

(** [attributes.get("forecast_flood_levels", 0)[day]] *)
Definition forecast_level (d : dict) (day : Z) : res pyval :=
  z <- py_getitem (dict_get_default "forecast_flood_levels" d (VInt 0)) day ;;
  Ok (VInt z).

(** Lines 68-81, 362-378: is the forecast used at [time]?  The warnings for unset
    values are only printed. *)
Definition forecast_active (S : settings) (time : Z) : option (Z * Z) :=
  match s_FloodForecasterTimescale S, s_FloodForecasterEndTime S with
  | Some ts, Some en =>
      if ((1 <? ts) && (time <=? en))%Z%bool then Some (ts, en) else None
  | _, _ => None
  end.

(** Lines 88 and 386: [FloodAwarenessWeights[int(attributes["floodawareness"])]] *)
Definition awareness_weight (S : settings) (a : agent) : res Q :=
  v <- of_option KeyError (dict_get "floodawareness" (a_attributes a)) ;;
  i <- py_int v ;;
  flood_table (s_FloodAwarenessWeights S) i.

Definition agent_attr (a : agent) (k : string) : res pyval :=
  of_option KeyError (dict_get k (a_attributes a)).

Definition is_male (v : pyval) : bool :=
  match v with VStr s => String.eqb s "male" | _ => false end.

(** ** getEndPointScore (flee/moving.py 17-151)

    [Match*Ethnicity] uses the module [spawning], which moving.py does not import:
    [NameError].  [min(1.0, pop)] is as in the code. *)
Definition score_children (S : settings) (a : agent) (base : Q) : res Q :=
  (* 39-46 *)
  if s_ChildrenAvoidHazards S then
    age <- agent_attr a "age" ;;
    n <- py_num age ;;
    let b1 := if Qltb n 19 then base * base else base in
    if s_BoysTakeRisk S then
      gender <- agent_attr a "gender" ;;
      Ok (if (is_male gender && Qltb 14 n)%bool then 1 else b1)
    else Ok b1
  else Ok base.

Definition score_home (S : settings) (o : oracle) (e : eco) (a : agent)
    (ep : location) (base : Q) : res Q :=
  (* 49-51: the distance is taken to the current location of the agent *)
  if s_StayCloseToHome S then
    match a_location a with
    | PLoc i =>
        here <- loc_of e i ;;
        d <- fpow o (Qmaxb 1 (o_dist o (l_x ep, l_y ep) (l_x here, l_y here)))
                  (s_HomeDistancePower S) ;;
        f <- fdiv 1 d ;;
        Ok (base * f)
    | _ => Err AttributeError
    end
  else Ok base.

Definition score_flood (S : settings) (e : eco) (a : agent) (ep : location)
    (time : Z) (base : Q) : res Q :=
  (* 54-134 *)
  if s_FloodRulesEnabled S then
    d <- loc_attrs e ep ;;
    let fl := dict_get_default "flood_level" d (VInt 0) in
    n <- py_num fl ;;
    base1 <- (if Qltb 0 n then
                i <- py_as_index fl ;;
                w <- flood_table (s_FloodLocWeights S) i ;;
                Ok (base * w)
              else Ok base) ;;
    if s_FloodForecaster S then
      match forecast_active S time with
      | Some (ts, en) =>
          aw <- awareness_weight S a ;;
          f <- forecast_loop S (forecast_level d) time en (days_ahead ts) 0 ;;
          f1 <- fdiv f (inject_Z ts) ;;
          Ok (base1 * (f * f1 * aw))
      | None => Ok base1
      end
    else Ok base1
  else Ok base.

Definition score_pop (S : settings) (o : oracle) (ep : location) (base : Q) : res Q :=
  if s_UsePopForLocWeight S then
    p <- fpow o (Qminb 1 (inject_Z (l_pop ep))) (s_PopPowerForLocWeight S) ;;
    Ok (base * p)
  else Ok base.

Definition score_type (S : settings) (o : oracle) (ep : location) (base : Q) : res Q :=
  (* 137-149 *)
  if l_camp ep then
    if s_MatchCampEthnicity S then Err NameError else Ok base
  else if Qltb 0 (l_conflict ep) then
    if s_MatchConflictEthnicity S then Err NameError else score_pop S o ep base
  else
    if s_MatchTownEthnicity S then Err NameError else score_pop S o ep base.

Definition getEndPointScore (S : settings) (o : oracle) (e : eco) (a : agent)
    (ep : location) (time : Z) : res Q :=
  b1 <- score_children S a (l_score1 ep) ;;
  b2 <- score_home S o e a ep b1 ;;
  b3 <- score_flood S e a ep time b2 ;;
  score_type S o ep b3.

(** ** getCapMultiplier (flee/moving.py 155-197); [numOnLink] is not used by the code *)
Definition getCapMultiplier (S : settings) (l : location) : res Q :=
  let occ := s_CapacityBuffer S in
  let cap := inject_Z (l_capacity l) * s_CapacityScaling S in
  let n := inject_Z (l_numAgents l) in
  if Qltb cap 1 then Ok 1
  else if Qleb n (occ * cap) then Ok 1
  else if Qleb (1 * cap) n then Ok 0
  else
    let residual := n - occ * cap in
    r <- fdiv residual (cap * (1 - occ)) ;;
    let weight := 1 - r in
    if negb (Qleb 0 weight) then Err AssertionError
    else if negb (Qleb weight 1) then Err AssertionError
    else Ok weight.

(** ** calculateLinkWeight (flee/moving.py 201-276)

    The two parallel result lists [weights], [routes] are one list of pairs here. *)

(** Lines 234-237: the weight of stopping at the end point of [k]. *)
Definition linkWeight (S : settings) (o : oracle) (e : eco) (a : agent) (k : link)
    (ep : location) (prior : Q) (time : Z) : res Q :=
  sc <- getEndPointScore S o e a ep time ;;
  d <- fpow o (s_DistanceSoftening S + k_distance k + prior) (s_DistancePower S) ;;
  w <- fdiv (s_WeightSoftening S + sc) d ;;
  c <- getCapMultiplier S ep ;;
  fpow o (w * c) (s_WeightPower S).

Fixpoint calculateLinkWeight (fuel : nat) (S : settings) (o : oracle) (e : eco)
    (a : agent) (ki : nat) (prior : Q) (origin : list string) (step time : Z)
  : res (list (Q * list string)) :=
  match fuel with
  | O => Err OutOfFuel
  | Datatypes.S fuel' =>
      k <- link_of e ki ;;
      ep <- endpoint_of e k ;;
      '(own, step1) <-
        (if l_marker ep then Ok ([], (step - 1)%Z)
         else w <- linkWeight S o e a k ep prior time ;;
              Ok ([(w, origin ++ [lname ep])], step)) ;;
      if (step1 <? s_AwarenessLevel S)%Z then
        foldM (fun acc li =>
                 lel <- link_of e li ;;
                 lep <- endpoint_of e lel ;;
                 if mem_str (lname lep) origin then Ok acc
                 else
                   sub <- calculateLinkWeight fuel' S o e a li
                            (prior + k_distance k) (origin ++ [lname ep])
                            (step1 + 1)%Z time ;;
                   Ok (acc ++ sub))
              (l_links ep) own
      else Ok own
  end.

(** Recursion budget: proved sufficient in [RouteProofs]. *)
Definition route_fuel (e : eco) : nat := 2 * List.length (e_locations e) + 2.

(** ** normalizeWeights (flee/moving.py 282-301) *)
Definition normalizeWeights (ws : list Q) : list Q :=
  if Qltb 0 (sumQ ws) then map (fun x => x / sumQ ws) ws
  else map (fun x => (x + 1) / inject_Z (Z.of_nat (List.length ws))) ws.

(** ** chooseFromWeights (flee/moving.py 306-323) *)
Definition chooseFromWeights {A : Type} (ws : list Q) (routes : list A) (g : rng)
  : res (option A * rng) :=
  match ws with
  | [] => Ok (None, g)
  | _ => '(r, g') <- random_choices routes (normalizeWeights ws) g ;; Ok (Some r, g')
  end.

(** ** calculateMoveChance (flee/moving.py 327-435) *)
Definition calculateMoveChance (S : settings) (o : oracle) (e : eco) (a : agent)
    (l : location) (force : bool) (time : Z) : res Q :=
  if (l_town l && force)%bool then Ok 1
  else
    ratio <- fdiv (inject_Z (Z.max (l_pop l) (l_capacity l))) (s_MovechancePopBase S) ;;
    f <- fpow o ratio (s_MovechancePopScaleFactor S) ;;
    let mc := l_movechance l * f in
    if s_FloodRulesEnabled S then
      d <- loc_attrs e l ;;
      let fl := dict_get_default "flood_level" d (VInt 0) in
      n <- py_num fl ;;
      mc1 <- (if Qltb 0 n then
                i <- py_as_index fl ;; flood_table (s_FloodMovechances S) i
              else Ok mc) ;;
      if s_FloodForecaster S then
        match forecast_active S time with
        | Some (ts, en) =>
            aw <- awareness_weight S a ;;
            fb <- forecast_loop S (forecast_level d) time en (days_ahead ts) 0 ;;
            f1 <- fdiv fb (inject_Z ts) ;;
            Ok (mc1 * (f1 * aw))
        | None => Ok mc1
        end
      else Ok mc1
    else Ok mc.

(** ** pruneRoutes (flee/moving.py 447-466) *)

(** [list.remove(v)]: drops the first element equal to [v]; [ValueError] if absent. *)
Fixpoint py_remove {A : Type} (eqb : A -> A -> bool) (v : A) (l : list A) : res (list A) :=
  match l with
  | [] => Err ValueError
  | a :: l' => if eqb a v then Ok l' else r <- py_remove eqb v l' ;; Ok (a :: r)
  end.

Fixpoint route_eqb (r1 r2 : list string) : bool :=
  match r1, r2 with
  | [], [] => true
  | a :: r1', b :: r2' => (String.eqb a b && route_eqb r1' r2')%bool
  | _, _ => false
  end.

(** [max(l)] of a non-empty list *)
Fixpoint maxQ (m : Q) (l : list Q) : Q :=
  match l with
  | [] => m
  | a :: l' => maxQ (if Qltb m a then a else m) l'
  end.

(** The while loop of lines 458-463; each iteration either removes an element or
    advances [i], so [length weights] iterations suffice. *)
Fixpoint prune_loop (fuel : nat) (thr : Q) (i : nat) (ws : list Q)
    (rs : list (list string)) : res (list Q * list (list string)) :=
  match nth_error ws i with
  | None => Ok (ws, rs)
  | Some w =>
      match fuel with
      | O => Err OutOfFuel
      | Datatypes.S fuel' =>
          if Qltb w thr then
            ws' <- py_remove Qeqb w ws ;;
            r <- of_option IndexError (nth_error rs i) ;;
            rs' <- py_remove route_eqb r rs ;;
            prune_loop fuel' thr i ws' rs'
          else prune_loop fuel' thr (Datatypes.S i) ws rs
      end
  end.

Definition pruneRoutes (S : settings) (ws : list Q) (rs : list (list string))
  : res (list Q * list (list string)) :=
  let threshold := s_PruningThreshold S in
  if Qltb threshold (1001 # 1000) then Ok (ws, rs)
  else match ws with
       | [] => Err ValueError
       | w :: ws' =>
           thr <- fdiv (maxQ w ws') threshold ;;
           prune_loop (List.length ws) thr 0 ws rs
       end.

(** ** selectRoute (flee/moving.py 470-532) *)

(** Lines 496-508: all weighted routes from the current location, origin included.
    This is what [selectRoute(..., return_all_routes=True)] returns. *)
Definition allRoutes (S : settings) (o : oracle) (e : eco) (a : agent) (l : location)
    (time : Z) : res (list (Q * list string)) :=
  foldM (fun acc ki =>
           sub <- calculateLinkWeight (route_fuel e) S o e a ki 0 [lname l] 1%Z time ;;
           Ok (acc ++ sub))
        (l_links l) [].

(** Lines 491-493 *)
Definition fixedRoutes (S : settings) (o : oracle) (e : eco) (a : agent) (l : location)
    (time : Z) : res (list (Q * list string)) :=
  mapM (fun entry =>
          let '(_, (w, r, epi)) := entry in
          ep <- loc_of e epi ;;
          sc <- getEndPointScore S o e a ep time ;;
          Ok (w * sc, r))
       (l_routes l).

Definition selectRoute (S : settings) (o : oracle) (e : eco) (a : agent)
    (l : location) (time : Z) (g : rng) : res (option (list rtok) * rng) :=
  if (s_AwarenessLevel S =? 0)%Z then
    '(z, g') <- np_randint 0 (Z.of_nat (List.length (l_links l))) g ;;
    Ok (Some [RIdx z], g')
  else
    '(ws, rs) <-
      (if s_FixedRoutes S then
         wr <- fixedRoutes S o e a l time ;; Ok (map fst wr, map snd wr)
       else
         wr <- allRoutes S o e a l time ;;
         pruneRoutes S (map fst wr) (map (fun p => tl (snd p)) wr)) ;;
    '(r, g') <- chooseFromWeights ws rs g ;;
    match r with
    | None => Ok (None, g')
    | Some [] => Err SystemExit
    | Some rt => Ok (Some (map RName rt), g')
    end.
