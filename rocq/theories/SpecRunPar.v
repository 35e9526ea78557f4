(** * SpecRunPar: vocabulary for the properties of the main program on several processes *)

From Verif Require Import Base State Flee DataTable Spawning InputGeography Dates DataFiles RunScript Api Pflee ParApi RunPar
  SpecAgents SpecNetwork SpecDates SpecData SpecParallel SpecRun.
Local Open Scope Q_scope.

(** The processes have read the input: [st] are their ecosystems, and [w] says what they
    all have in common: the period, the tables, the data and the camps. *)
Definition started (S : settings) (o : oracle) (inp : run_input) (gs : list rng) (w : world) (st : list (eco * rng)) : Prop :=
  Forall2 (fun x y => exists p, par_set_up S o inp (fst x) (snd x) = Ok p /\ y = (p_eco p, p_rng p) /\
             w_start (p_world p) = w_start w /\ w_end (p_world p) = w_end w /\ w_geo (p_world p) = w_geo w /\
             w_data (p_world p) = w_data w /\ w_camps (p_world p) = w_camps w) (pstart gs) st.

(** [par_simulated t sp d st]: the state after [t] days; all processes have the same
    registered total and debt [sp] and the same data [d].  A day is AddNewConflictZones,
    spawn_daily_displaced, refresh_spawn_weights, enact_border_closures, evolve. *)
Inductive par_simulated (fuel : nat) (m : pmode) (lat : latency) (S : settings) (o : oracle) (inp : run_input) (w : world)
    (st0 : list (eco * rng)) : nat -> spawn_state -> dtable -> list (eco * rng) -> Prop :=
| Par_start : par_simulated fuel m lat S o inp w st0 0 (Spawn 0 0) (w_data w) st0
| Par_one_more t sp d st st1 sp' d' st2 st' :
    par_simulated fuel m lat S o inp w st0 t sp d st ->
    prun o [(S, PEach (OAddNewConflictZones (in_conflict_file inp) (w_geo w) (Z.of_nat t)))] st = Ok st1 ->
    Forall2 (fun x y => exists n, par_spawn_daily_displaced S (in_dm inp) (Z.of_nat t) sp d (fst x) (snd x) = Ok (n, sp', d', fst y, snd y)) st1 st2 ->
    prun o [(S, PEach ORefreshSpawnWeights); (S, PEach (OEnactBorderClosures fuel (Z.of_nat t) true)); (S, PEvolve m lat fuel)] st2 = Ok st' ->
    par_simulated fuel m lat S o inp w st0 (Datatypes.S t) sp' d' st'.

(** The line printed for day [t]: numbers of people are those of all processes together. *)
Record par_line_of (S : settings) (inp : run_input) (w : world) (t : nat) (raw debt : Z) (st : list (eco * rng)) (r : report) : Prop := {
  pl_day : r_day r = Z.of_nat t;
  pl_date : exists d0 d, civil d0 /\ written (w_start w) d0 /\ civil d /\ days_apart d0 (Z.of_nat t) d /\ written (r_date r) d;
  pl_camps : Forall2 (fun camp (x : Z * Z * Q) => let '(sim, data, err) := x in
      (exists i, (forall e g, In (e, g) st -> called e camp i) /\ sim = people_in st i) /\
      (camp <> "total"%string -> data_shown S (w_data w) camp (Z.of_nat t) data) /\
      error_shown sim data err) (w_camps w) (r_camps r);
  pl_total : ig_closures (in_geo inp) = Some [] -> r_total r = people st;
  pl_in_camps : r_in_camps r = sumZ (map (fun x => fst (fst x)) (r_camps r));
  pl_idps : r_idps r = None;
  pl_raw : (0 < raw)%Z -> r_raw r = raw /\ r_debt r = debt /\ r_data r = sumZ (map (fun x => snd (fst x)) (r_camps r)) /\
    r_error r == inject_Z (sumZ (map (fun x => Z.abs (fst (fst x) - snd (fst x))) (r_camps r))) / inject_Z raw;
  pl_none : (raw <= 0)%Z -> r_raw r = 0%Z /\ r_debt r = 0%Z /\ r_data r = 0%Z /\ r_error r = 0 }.
